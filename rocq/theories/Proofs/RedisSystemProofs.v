(** Proofs about a [System] on actors in front of Redis. *)
From Coq Require Import ZifyBool ZifyN ZifyNat Lia Sorted.
From Verif Require Import Model.Base Model.MCaptcha Model.HashCache Model.Pow Model.System Model.Master Model.Json Model.Serde Model.Redis
  Model.RedisActor Model.RedisTokens Model.SystemProgram Model.SystemShared Model.RedisSystem
  Spec.RedisActorSpec Spec.ProgramSpec Spec.SharedSpec Spec.RedisSystemSpec
  Proofs.RedisActorProofs Proofs.ProgramProofs Proofs.SharedProofs.

Lemma rs_run_app k l s es1 es2 :
  rs_run k l s (es1 ++ es2) =
    match rs_run k l s es1 with
    | Some (s1, o1) => match rs_run k l s1 es2 with Some (s2, o2) => Some (s2, o1 ++ o2) | None => None end
    | None => None
    end.
Proof.
  revert s. induction es1 as [|e es1 IH]; intros s; cbn [app rs_run].
  - by destruct (rs_run k l s es2) as [[? ?]|].
  - destruct (rs_step k l s e) as [[s1 o1]|]; [|done]. rewrite IH. destruct (rs_run k l s1 es1) as [[s2 o2]|]; [|done].
    destruct (rs_run k l s2 es2) as [[s3 o3]|]; [|done]. by rewrite app_assoc.
Qed.
Lemma rs_run_snoc k l s es e s2 tr : rs_run k l s (es ++ [e]) = Some (s2, tr) ->
  exists s1 tr1 o, rs_run k l s es = Some (s1, tr1) /\ rs_step k l s1 e = Some (s2, o) /\ tr = tr1 ++ o.
Proof.
  rewrite rs_run_app. destruct (rs_run k l s es) as [[s1 tr1]|]; [|done]. cbn [rs_run].
  destruct (rs_step k l s1 e) as [[s2' o]|] eqn:E; [|done]. intros [= <- <-]. exists s1, tr1, o. by rewrite app_nil_r.
Qed.

(** * One actor *)
(** Request [m] waits for its answer. *)
Definition pending (s : ractor) (m : nat) (a : action) : Prop :=
  RReq m a true ∈ ra_box s \/ exists op st, a = AcCommand op st /\ ra_cur s = Some (m, op, st, true).
Lemma pending_id s m a : pending s m a -> m ∈ all_ids s.
Proof.
  unfold all_ids. intros [H|(op & st & _ & H)].
  - apply elem_of_app. right. apply elem_of_list_fmap. by exists (RReq m a true).
  - rewrite H. apply elem_of_app. left. by left.
Qed.
Lemma pending_lt s m a : inv s -> pending s m a -> (m < ra_next s)%nat.
Proof. intros (_ & H & _) Hp. rewrite Forall_forall in H. by apply H, (pending_id _ _ a). Qed.
Lemma pending_cur s m a op st w : inv s -> pending s m a -> ra_cur s = Some (m, op, st, w) -> a = AcCommand op st /\ w = true.
Proof.
  intros (Hs & _) [H|(op' & st' & -> & H)] Hc.
  - exfalso. unfold all_ids in Hs. rewrite Hc in Hs. cbn in Hs. apply StronglySorted_inv in Hs as [_ Hs].
    rewrite Forall_forall in Hs. specialize (Hs m). assert (m < m)%nat; [|lia]. apply Hs.
    apply elem_of_list_fmap. by exists (RReq m a true).
  - rewrite Hc in H. by injection H as -> -> ->.
Qed.
Lemma sorted_head q rest : StronglySorted lt (rq_id <$> q :: rest) -> forall x, x ∈ rest -> rq_id x <> rq_id q.
Proof.
  rewrite fmap_cons. intros H x Hx Hq. apply StronglySorted_inv in H as [_ H]. rewrite Forall_forall in H.
  specialize (H (rq_id x)). assert (rq_id q < rq_id x)%nat; [|lia]. apply H. apply elem_of_list_fmap. by exists x.
Qed.
Lemma waiting_pending s m a : pending s m a -> m ∈ waiting s.
Proof.
  unfold waiting. intros [H|(op & st & _ & H)].
  - apply elem_of_app. right. apply elem_of_list_omap. by exists (RReq m a true).
  - rewrite H. apply elem_of_app. left. by left.
Qed.

Lemma die_settles s m a : pending s m a -> exists ob t, ob ∈ (die s).2 /\ settled_by (working_on s) ob = Some (m, t).
Proof.
  intros Hp. exists (ObFail m). eexists. split; [|reflexivity]. cbn. right. apply elem_of_list_fmap. exists m.
  split; [done|]. by apply (waiting_pending _ _ a).
Qed.
Lemma pending_step k s e s' o m a : inv s -> pending s m a -> ra_step k s e = Some (s', o) -> e <> ReGone m ->
  pending s' m a \/ exists ob t, ob ∈ o /\ settled_by (working_on s) ob = Some (m, t).
Proof.
  intros Hi Hp H He.
  assert (Hdie : Some (die s) = Some (s', o) -> exists ob t, ob ∈ o /\ settled_by (working_on s) ob = Some (m, t)).
  { intros [= <- <-]. by apply (die_settles _ _ a). }
  assert (Hkeep : ra_box s' = ra_box s -> ra_cur s' = ra_cur s -> pending s' m a)
    by (unfold pending; by intros -> ->).
  destruct e as [b w|n| |r|u op|u r|u]; cbn [ra_step] in H.
  - left. destruct (ra_alive s); injection H as <- <-; [|by apply Hkeep]. destruct Hp as [Hp|Hp]; [|by right].
    left. cbn. apply elem_of_app. by left.
  - left. assert (Hne : n <> m) by congruence.
    assert (Hf : RReq m a true ∈ ra_box s -> RReq m a true ∈ List.filter (drop_gone n) (ra_box s)).
    { rewrite !elem_of_list_In. intros Hx. apply filter_In. split; [done|]. unfold drop_gone. cbn.
      by rewrite (proj2 (Nat.eqb_neq m n)) by done. }
    destruct (ra_cur s) as [[[[x op] st] [|]]|] eqn:Ec; [destruct (Nat.eqb_spec x n) as [->|]|..]; injection H as <- <-;
      destruct Hp as [Hp|(op' & st' & -> & Hc)]; try (left; by apply Hf); try (rewrite Ec in Hc; try discriminate;
        injection Hc as -> -> ->); try done.
    right. exists op', st'. split; [done|]. done.
  - destruct (ra_alive s); [|done]. destruct (ra_cur s) eqn:Ec; [done|]. destruct (ra_box s) as [|q rest] eqn:Eb; [done|].
    destruct Hp as [Hp|(op & st & _ & Hc)]; [|by rewrite Ec in Hc]. rewrite Eb in Hp.
    destruct (rq_action q) as [op st|x|] eqn:Eq.
    + destruct (borrowed s); [destruct k; [|done]; right; by apply Hdie|]. injection H as <- <-. left.
      apply elem_of_cons in Hp as [<-|Hp]; [|by left]. right. cbn in Eq. exists op, st. by rewrite Eq.
    + injection H as <- <-. apply elem_of_cons in Hp as [<-|Hp]; [|left; by left]. right. cbn.
      exists (ObAnswer m x). eexists. split; [by left|done].
    + right. by apply Hdie.
  - destruct (ra_cur s) as [[[[x op] st] w]|] eqn:Ec; [|done]. destruct (rc_answer op r) as [y|]; [|right; by apply Hdie].
    destruct (decide (x = m)) as [->|Hne].
    + destruct (pending_cur s m a op st w Hi Hp Ec) as [-> ->]. injection H as <- <-. right.
      exists (ObAnswer m y). eexists. split; [by left|done].
    + destruct Hp as [Hp|(op' & st' & -> & Hc)]; [|rewrite Ec in Hc; by injection Hc as ->].
      destruct w; [injection H as <- <-; left; by left|]. destruct st; [right; by apply Hdie|].
      injection H as <- <-. left. by left.
  - left. destruct (ra_users s !! u); [done|]. destruct (borrowed s); [destruct k; [|done]|]; injection H as <- <-; by apply Hkeep.
  - left. destruct (ra_users s !! u); [|done]. destruct (rc_answer _ r); injection H as <- <-; by apply Hkeep.
  - left. destruct (ra_users s !! u); [|done]. injection H as <- <-; by apply Hkeep.
Qed.
Lemma fails_no_answer s m x : ObAnswer m x ∉ (die s).2.
Proof.
  cbn. intros H. apply elem_of_cons in H as [H|H]; [done|]. apply elem_of_list_fmap in H as (? & ? & _). done.
Qed.
Lemma answered_step k s e s' o m a x : inv s -> pending s m a -> ra_step k s e = Some (s', o) -> ObAnswer m x ∈ o ->
  (exists r op st, e = ReReply r /\ a = AcCommand op st /\ ra_cur s = Some (m, op, st, true) /\ rc_answer op r = Val x) \/
  (a = AcNow x /\ e = ReTake).
Proof.
  intros Hi Hp H Ho. destruct e as [b w|n| |r|u op|u r|u]; cbn [ra_step] in H.
  - destruct (ra_alive s); injection H as <- <-; [by apply elem_of_nil in Ho|]. destruct w; [|by apply elem_of_nil in Ho].
    by apply elem_of_list_singleton in Ho.
  - assert (Hl : forall b : bool, ObAnswer m x ∉ (if b then [ObLeft n] else [])).
    { intros [] Hx; [by apply elem_of_list_singleton in Hx|by apply elem_of_nil in Hx]. }
    destruct (ra_cur s) as [[[[y op] st] [|]]|]; [destruct (y =? n)%nat|..]; injection H as <- <-; try (by apply Hl in Ho).
    apply elem_of_app in Ho as [Ho|Ho]; [by apply Hl in Ho|by apply elem_of_list_singleton in Ho].
  - destruct (ra_alive s); [|done]. destruct (ra_cur s) eqn:Ec; [done|]. destruct (ra_box s) as [|q rest] eqn:Eb; [done|].
    destruct (rq_action q) as [op st|y|] eqn:Eq.
    + destruct (borrowed s); [destruct k; [|done]|]; injection H as <- <-; [by apply (fails_no_answer s) in Ho|].
      by apply elem_of_list_singleton in Ho.
    + injection H as <- <-. destruct (rq_send q); [|by apply elem_of_nil in Ho]. apply elem_of_list_singleton in Ho.
      injection Ho as -> ->. right. split; [|done].
      destruct Hp as [Hp|(op & st & _ & Hc)]; [|by rewrite Ec in Hc]. rewrite Eb in Hp.
      apply elem_of_cons in Hp as [Hq|Hp]; [rewrite <- Hq in Eq; exact Eq|]. exfalso. destruct Hi as (Hs & _). unfold all_ids in Hs.
      rewrite Ec, Eb in Hs. cbn [app] in Hs. by apply (sorted_head _ _ Hs _ Hp).
    + injection H as <- <-. by apply (fails_no_answer s) in Ho.
  - destruct (ra_cur s) as [[[[y op] st] w]|] eqn:Ec; [|done]. left.
    destruct (rc_answer op r) as [z|] eqn:Er; [|injection H as <- <-; by apply (fails_no_answer s) in Ho].
    destruct w; [|destruct st; injection H as <- <-; [by apply (fails_no_answer s) in Ho|by apply elem_of_nil in Ho]].
    injection H as <- <-. apply elem_of_list_singleton in Ho. injection Ho as -> ->.
    destruct (pending_cur s y a op st true Hi Hp Ec) as [-> _]. by exists r, op, st.
  - destruct (ra_users s !! u); [done|]. destruct (borrowed s); [destruct k; [|done]|]; injection H as <- <-;
      by apply elem_of_list_singleton in Ho.
  - destruct (ra_users s !! u); [|done]. destruct (rc_answer _ r); injection H as <- <-; by apply elem_of_list_singleton in Ho.
  - destruct (ra_users s !! u); [|done]. injection H as <- <-. by apply elem_of_nil in Ho.
Qed.
Lemma send_pending k s a s' o : ra_step k s (ReSend a true) = Some (s', o) ->
  (pending s' (ra_next s) a /\ o = []) \/ (o = [ObFail (ra_next s)] /\ ra_alive s = false).
Proof.
  cbn [ra_step]. destruct (ra_alive s); intros [= <- <-]; [left|by right]. split; [|done]. left. cbn.
  apply elem_of_app. right. by left.
Qed.

(** * Callers *)
Lemma waiter_some w k c n : waiter w k c = Some n -> exists p, c !! n = Some (p, Some (w, k)).
Proof.
  unfold waiter. intros H. apply fmap_Some in H as ([n' [p v]] & H & ->). apply head_Some_elem_of in H.
  apply elem_of_list_In, filter_In in H as [H Hv]. apply bool_decide_eq_true in Hv. cbn in Hv. subst v.
  apply elem_of_list_In, elem_of_map_to_list in H. by exists p.
Qed.
Lemma waiter_none w k c n p : waiter w k c = None -> c !! n <> Some (p, Some (w, k)).
Proof.
  unfold waiter. intros H Hc. apply fmap_None in H. apply head_None in H.
  assert (Hin : (n, (p, Some (w, k))) ∈ List.filter (fun x => bool_decide (x.2.2 = Some (w, k))) (map_to_list c)).
  { apply elem_of_list_In, filter_In. split; [by apply elem_of_list_In, elem_of_map_to_list|]. by apply bool_decide_eq_true. }
  rewrite H in Hin. by apply elem_of_nil in Hin.
Qed.
Definition unique (w : which) (c : gmap nat (prog * waits)) : Prop :=
  forall n n' p p' m, c !! n = Some (p, Some (w, m)) -> c !! n' = Some (p', Some (w, m)) -> n = n'.
Lemma told_to_app n tr1 tr2 : told_to n (tr1 ++ tr2) = told_to n tr1 ++ told_to n tr2.
Proof. apply omap_app. Qed.
Lemma told_other n n' e : n <> n' -> told_to n [SvoTold n' e] = [].
Proof. intros H. unfold told_to. cbn. by rewrite decide_False. Qed.
Lemma told_own n e : told_to n [SvoTold n e] = [e].
Proof. unfold told_to. cbn. by rewrite decide_True. Qed.

Lemma settle_all_spec w cur os : forall c c' out, unique w c -> settle_all w cur os c = (c', out) ->
  (forall n p m, c !! n = Some (p, Some (w, m)) -> is_Some (message p)) ->
  (forall o, o ∈ out -> exists n e, o = SvoTold n e) /\
  forall n,
    (c' !! n = c !! n /\ told_to n out = [] /\
       forall p m, c !! n = Some (p, Some (w, m)) -> forall o t, o ∈ os -> settled_by cur o <> Some (m, t)) \/
    (exists p m o t p' e, c !! n = Some (p, Some (w, m)) /\ o ∈ os /\ settled_by cur o = Some (m, t) /\
       resume p t = Some (p', e) /\ c' !! n = Some (p', None) /\ told_to n out = [e]).
Proof.
  induction os as [|o os IH]; intros c c' out Hu H Hm; cbn [settle_all] in H.
  { injection H as <- <-. split; [by intros o Ho%elem_of_nil|]. intros n. left. split; [done|]. split; [done|].
    by intros p m _ o t Ho%elem_of_nil. }
  destruct (match settled_by cur o with Some (m, t) => settle w m t c | None => (c, []) end) as [c1 o1] eqn:E1.
  destruct (settle_all w cur os c1) as [c2 o2] eqn:E2. injection H as <- <-.
  (* one observation *)
  assert (Hone : (c1 = c /\ o1 = [] /\ forall m t, settled_by cur o = Some (m, t) -> forall n p, c !! n <> Some (p, Some (w, m))) \/
    exists n p m t p' e, settled_by cur o = Some (m, t) /\ c !! n = Some (p, Some (w, m)) /\ resume p t = Some (p', e) /\
      c1 = <[n := (p', None)]> c /\ o1 = [SvoTold n e]).
  { destruct (settled_by cur o) as [[m t]|]; [|injection E1 as <- <-; by left]. unfold settle in E1.
    destruct (waiter w m c) as [n|] eqn:Ew.
    - destruct (waiter_some _ _ _ _ Ew) as [p Hp]. rewrite Hp in E1. destruct (Hm _ _ _ Hp) as [wa Hwa].
      destruct (resume p t) as [[p' e]|] eqn:Er.
      + injection E1 as <- <-. right. by exists n, p, m, t, p', e.
      + exfalso. destruct p; done.
    - injection E1 as <- <-. left. split; [done|]. split; [done|]. intros m' t' [= <- <-] n p. by apply waiter_none. }
  assert (Hu1 : unique w c1 /\ forall n p m, c1 !! n = Some (p, Some (w, m)) -> c !! n = Some (p, Some (w, m))).
  { destruct Hone as [(-> & _ & _)|(n & p & m & t & p' & e & _ & _ & _ & -> & _)]; [by split|].
    assert (Hsub : forall x y z, <[n := (p', None)]> c !! x = Some (y, Some (w, z)) -> c !! x = Some (y, Some (w, z))).
    { intros x y z. rewrite lookup_insert_Some. intros [[_ H]|[_ H]]; [done|done]. }
    split; [|exact Hsub]. intros x x' y y' z Hx Hx'. apply Hsub in Hx, Hx'. by apply (Hu x x' y y' z). }
  destruct Hu1 as [Hu1 Hsub].
  destruct (IH c1 c2 o2 Hu1 E2) as [Hout Hrest]; [intros n p m Hc; by apply (Hm n p m), Hsub|].
  split.
  { intros x Hx. apply elem_of_app in Hx as [Hx|Hx]; [|by apply Hout].
    destruct Hone as [(_ & -> & _)|(n & p & m & t & p' & e & _ & _ & _ & _ & ->)]; [by apply elem_of_nil in Hx|].
    apply elem_of_list_singleton in Hx as ->. by exists n, e. }
  intros n. rewrite told_to_app. destruct Hone as [(-> & -> & Hno)|(n0 & p0 & m0 & t0 & p0' & e0 & Hs0 & Hc0 & Hr0 & -> & ->)].
  - destruct (Hrest n) as [(H1 & H2 & H3)|(p & m & o' & t & p' & e & H1 & H2 & H3 & H4 & H5 & H6)].
    + left. split; [done|]. split; [by rewrite H2|]. intros p m Hp o' t Ho' Hs. apply elem_of_cons in Ho' as [->|Ho'].
      * by apply (Hno m t Hs n p).
      * by apply (H3 p m Hp o' t).
    + right. exists p, m, o', t, p', e. split; [done|]. split; [by right|]. done.
  - destruct (decide (n = n0)) as [->|Hne].
    + destruct (Hrest n0) as [(H1 & H2 & _)|(p & m & o' & t & p' & e & H1 & _)]; [|by rewrite lookup_insert in H1].
      rewrite lookup_insert in H1. right. exists p0, m0, o, t0, p0', e0. rewrite told_own, H2. split; [done|].
      split; [by left|]. done.
    + rewrite told_other by done. cbn [app].
      destruct (Hrest n) as [(H1 & H2 & H3)|(p & m & o' & t & p' & e & H1 & H2 & H3 & H4 & H5 & H6)];
        rewrite lookup_insert_ne in H1 by done.
      * left. split; [done|]. split; [done|]. intros p m Hp o' t Ho' Hs. apply elem_of_cons in Ho' as [->|Ho'].
        -- rewrite Hs0 in Hs. injection Hs as -> ->. by apply Hne, (Hu n n0 p p0 m).
        -- apply (H3 p m) with o' t; [|done|done]. by rewrite lookup_insert_ne.
      * right. exists p, m, o', t, p', e. split; [done|]. split; [by right|]. done.
Qed.
Lemma resume_step p t p' e : resume p t = Some (p', e) -> p_step p e = Some p'.
Proof. destruct p; try done; intros [= <- <-]; cbn; by rewrite decide_True. Qed.

(** * The invariant *)
Lemma actor_events_app w tr1 tr2 : actor_events w (tr1 ++ tr2) = actor_events w tr1 ++ actor_events w tr2.
Proof. apply omap_app. Qed.
Lemma actor_obs_app w tr1 tr2 : actor_obs w (tr1 ++ tr2) = actor_obs w tr1 ++ actor_obs w tr2.
Proof. apply bind_app. Qed.
Lemma actor_told w out : (forall o, o ∈ out -> exists n e, o = SvoTold n e) -> actor_events w out = [] /\ actor_obs w out = [].
Proof.
  induction out as [|o out IH]; [done|]. intros H. destruct (H o) as (n & e & ->); [by left|].
  destruct IH as [H1 H2]; [intros x Hx; apply H; by right|]. by split.
Qed.

Record rbase (k : conn) (l : pow_lib) (tr : list rsout) (s : rsys) : Prop := {
  ri_actor : forall w, ra_run k ra_init (actor_events w tr) = Some (actor w s, actor_obs w tr);
  ri_call : forall n p v, rs_calls s !! n = Some (p, v) -> (n < rs_next s)%nat /\
    exists c, SvoCall n c ∈ tr /\ p_run (program (pl_salt l) c) (told_to n tr) = Some p;
  ri_new : forall n, (rs_next s <= n)%nat -> told_to n tr = [];
  ri_once : forall w, unique w (rs_calls s);
  ri_ret : forall n r, SvoRet n r ∈ tr -> rs_calls s !! n = None /\ (n < rs_next s)%nat /\
    exists c, SvoCall n c ∈ tr /\ p_run (program (pl_salt l) c) (told_to n tr) = Some (PRet r) }.
Definition rinv (k : conn) (l : pow_lib) (tr : list rsout) (s : rsys) : Prop :=
  rbase k l tr s /\
  forall n p w m, rs_calls s !! n = Some (p, Some (w, m)) -> exists a, message p = Some (w, a) /\ pending (actor w s) m a.
(** Answers in [o], after [tr], are the meanings of replies to the commands last
    sent; there is none only if the actor died. *)
Definition told_good (tr o : list rsout) : Prop :=
  forall o1 n e o2 w op x, o = o1 ++ SvoTold n e :: o2 -> exchange_of e = Some (w, op, x) ->
    exists o0 ev os mid, o1 = o0 ++ SvoActor w ev os :: mid /\ actor_events w mid = [] /\
      match x with
      | Some y => exists r, ev = ReReply r /\ rc_answer op r = Val y /\ last_command (actor_obs w (tr ++ o0)) = Some (rc_cmd op)
      | None => died (actor_obs w (tr ++ o0) ++ os)
      end /\
      (died (actor_obs w (tr ++ o0)) -> closed e).
Definition command_of (a : action) : option rcmd := match a with AcCommand op _ => Some op | _ => None end.
Lemma lift_kind {A} (f : result A -> rout) op r y : rc_answer (lift f op) r = Val y -> exists x, y = f x.
Proof. unfold lift. cbn. destruct (ro_reply op r) as [x|]; [|done]. intros [= <-]. by exists x. Qed.
Lemma exchange_resume p t p' e w op x w' a : resume p t = Some (p', e) -> exchange_of e = Some (w, op, x) ->
  message p = Some (w', a) -> w' = w /\ command_of a = Some op /\ (t = TdClosed -> closed e) /\
  match x with Some y => t = TdAnswer y | None => forall r y, rc_answer op r = Val y -> t <> TdAnswer y end.
Proof.
  destruct p; intros H He Hm; try discriminate H; injection H as <- <-; cbn in He, Hm;
    injection Hm as <- <-; injection He as <- <- <-;
    (split; [done|]; split; [done|]; split; [by intros ->|]);
    (destruct t as [y| |]; [|done|done]); destruct y; try done;
    intros r' y Hr Hy; injection Hy as <-; apply lift_kind in Hr as [? Hr]; done.
Qed.
Lemma alive_died k es s o : ra_run k ra_init es = Some (s, o) ->
  (ra_alive s = true /\ ~ died o) \/ (ra_alive s = false /\ died o /\ ra_cur s = None /\ ra_box s = []).
Proof.
  revert s o. induction es as [|e es IH] using rev_ind; intros s o H.
  { injection H as <- <-. left. split; [done|]. by intros Hf%elem_of_nil. }
  rewrite ra_run_app in H. destruct (ra_run k ra_init es) as [[s1 o1]|]; [|done]. cbn [ra_run] in H.
  destruct (ra_step k s1 e) as [[s2 o2]|] eqn:E; [|done]. injection H as <- <-. rewrite app_nil_r.
  assert (Hstep : (s2, o2) = die s1 \/ (~ died o2 /\ ra_alive s2 = ra_alive s1 /\ (ra_alive s1 = false -> ra_cur s1 = None -> ra_box s1 = [] ->
    ra_cur s2 = None /\ ra_box s2 = []))).
  { assert (Hl : forall n (b : bool) o, o = (if b then [ObLeft n] else []) -> ~ died o).
    { intros n [] x -> Hx; [by apply elem_of_list_singleton in Hx|by apply elem_of_nil in Hx]. }
    destruct e as [b w|n| |r|u op|u r|u]; cbn [ra_step] in E.
    - right. destruct (ra_alive s1) eqn:Ea; injection E as <- <-; cbn; (split; [|done]).
      + by intros Hf%elem_of_nil.
      + destruct w; [intros Hf; by apply elem_of_list_singleton in Hf|by intros Hf%elem_of_nil].
    - right. destruct (ra_cur s1) as [[[[y op] st] [|]]|] eqn:Ec; [destruct (y =? n)%nat|..]; injection E as <- <-;
        (split; [first [exact (Hl _ _ _ eq_refl)|intros Hf; apply elem_of_app in Hf as [Hf|Hf]; [by apply (Hl _ _ _ eq_refl) in Hf|by apply elem_of_list_singleton in Hf]]|]);
        (split; [done|]); intros _ H1 H2; try done; cbn; by rewrite H2.
    - destruct (ra_alive s1) eqn:Ea; [|done]. destruct (ra_cur s1); [done|]. destruct (ra_box s1) as [|q rest]; [done|].
      destruct (rq_action q).
      + destruct (borrowed s1); [destruct k; [|done]; left; injection E as <- <-; done|]. injection E as <- <-. right.
        split; [intros Hf; by apply elem_of_list_singleton in Hf|]. split; [done|]. by intros.
      + injection E as <- <-. right. split; [|split; [done|by intros]].
        destruct (rq_send q); [intros Hf; by apply elem_of_list_singleton in Hf|by intros Hf%elem_of_nil].
      + left. injection E as <- <-; done.
    - destruct (ra_cur s1) as [[[[x op] st] w]|] eqn:Ec; [|done]. destruct (rc_answer op r); [|left; injection E as <- <-; done].
      destruct w; [|destruct st; [left; injection E as <- <-; done|]]; injection E as <- <-; right;
        (split; [|split; [done|by intros]]); [intros Hf; by apply elem_of_list_singleton in Hf|by intros Hf%elem_of_nil].
    - right. destruct (ra_users s1 !! u); [done|]. destruct (borrowed s1); [destruct k; [|done]|]; injection E as <- <-;
        (split; [intros Hf; by apply elem_of_list_singleton in Hf|]); done.
    - right. destruct (ra_users s1 !! u); [|done]. destruct (rc_answer _ r); injection E as <- <-;
        (split; [intros Hf; by apply elem_of_list_singleton in Hf|]); done.
    - right. destruct (ra_users s1 !! u); [|done]. injection E as <- <-. split; [by intros Hf%elem_of_nil|done]. }
  destruct Hstep as [Hd|(H1 & H2 & H3)].
  - injection Hd as -> ->. right. split; [done|]. split; [|done]. apply elem_of_app. right. by left.
  - rewrite H2. destruct (IH _ _ eq_refl) as [[H4 H5]|(H4 & H5 & H6 & H7)].
    + left. split; [done|]. intros Hf. by apply elem_of_app in Hf as [?|?].
    + right. split; [done|]. split; [apply elem_of_app; by left|]. by apply H3.
Qed.
Lemma fail_step k s e s' o n : ra_step k s e = Some (s', o) -> ObFail n ∈ o ->
  died o \/ (ra_alive s = false /\ exists a, e = ReSend a true).
Proof.
  intros H Ho. destruct e as [b w|m| |r|u op|u r|u]; cbn [ra_step] in H.
  - right. destruct (ra_alive s); injection H as <- <-; [by apply elem_of_nil in Ho|]. split; [done|].
    destruct w; [by exists b|by apply elem_of_nil in Ho].
  - exfalso. assert (Hl : forall b : bool, ObFail n ∉ (if b then [ObLeft m] else [])).
    { intros [] Hx; [by apply elem_of_list_singleton in Hx|by apply elem_of_nil in Hx]. }
    destruct (ra_cur s) as [[[[y op] st] [|]]|]; [destruct (y =? m)%nat|..]; injection H as <- <-; try (by apply Hl in Ho).
    apply elem_of_app in Ho as [Ho|Ho]; [by apply Hl in Ho|by apply elem_of_list_singleton in Ho].
  - destruct (ra_alive s); [|done]. destruct (ra_cur s); [done|]. destruct (ra_box s) as [|q rest]; [done|].
    destruct (rq_action q).
    + destruct (borrowed s); [destruct k; [|done]; injection H as <- <-; left; by left|]. injection H as <- <-.
      by apply elem_of_list_singleton in Ho.
    + injection H as <- <-. destruct (rq_send q); [by apply elem_of_list_singleton in Ho|by apply elem_of_nil in Ho].
    + injection H as <- <-. left; by left.
  - destruct (ra_cur s) as [[[[x op] st] w]|]; [|done]. destruct (rc_answer op r); [|injection H as <- <-; left; by left].
    destruct w; [|destruct st; [injection H as <- <-; left; by left|]]; injection H as <- <-;
      [by apply elem_of_list_singleton in Ho|by apply elem_of_nil in Ho].
  - destruct (ra_users s !! u); [done|]. destruct (borrowed s); [destruct k; [|done]|]; injection H as <- <-;
      by apply elem_of_list_singleton in Ho.
  - destruct (ra_users s !! u); [|done]. destruct (rc_answer _ r); injection H as <- <-; by apply elem_of_list_singleton in Ho.
  - destruct (ra_users s !! u); [|done]. injection H as <- <-. by apply elem_of_nil in Ho.
Qed.
Lemma ra_linked k es s o : ra_run k ra_init es = Some (s, o) -> linked s o.
Proof.
  revert s o. induction es as [|e es IH] using rev_ind; intros s o H; [by injection H as <- <-|].
  rewrite ra_run_app in H. destruct (ra_run k ra_init es) as [[s1 o1]|]; [|done]. cbn [ra_run] in H.
  destruct (ra_step k s1 e) as [[s2 o2]|] eqn:E; [|done]. injection H as <- <-. rewrite app_nil_r.
  apply (linked_step k s1 e); [by apply IH|done].
Qed.
Lemma ra_inv k es s o : ra_run k ra_init es = Some (s, o) -> inv s.
Proof. intros H. by destruct (run_accounted k ra_init es s o init_inv H). Qed.
Lemma message_command p w a : message p = Some (w, a) -> is_Some (command_of a).
Proof. destruct p; try done; intros [= <- <-]; by eexists. Qed.

Lemma actor_same w w' a c s : w' <> w -> actor w' (set_calls c (set_actor w a s)) = actor w' s.
Proof. by destruct w, w'. Qed.
Lemma actor_own w a c s : actor w (set_calls c (set_actor w a s)) = a.
Proof. by destruct w. Qed.
Lemma actor_calls w c s : actor w (set_calls c s) = actor w s.
Proof. by destruct w. Qed.
Lemma calls_own w a c s : rs_calls (set_calls c (set_actor w a s)) = c.
Proof. by destruct w. Qed.
Lemma next_own w a c s : rs_next (set_calls c (set_actor w a s)) = rs_next s.
Proof. by destruct w. Qed.

Lemma actor_step_inv k l tr s w e s' o :
  rbase k l tr s ->
  (forall n p w' m, rs_calls s !! n = Some (p, Some (w', m)) -> exists a, message p = Some (w', a) /\
     ((pending (actor w' s) m a /\ (w' = w -> e <> ReGone m)) \/ (w' = w /\ e = ReSend a true /\ m = ra_next (actor w s)))) ->
  actor_step k w e s = Some (s', o) ->
  rinv k l (tr ++ o) s' /\ told_good tr o.
Proof.
  intros Hb Hw H. unfold actor_step in H. destruct (ra_step k (actor w s) e) as [[a os]|] eqn:Es; [|done].
  destruct (settle_all w (working_on (actor w s)) os (rs_calls s)) as [c out] eqn:Ec. injection H as <- <-.
  pose proof (ri_actor _ _ _ _ Hb w) as Hrun. pose proof (ra_inv _ _ _ _ Hrun) as Hi. pose proof (ra_linked _ _ _ _ Hrun) as Hlk.
  destruct (settle_all_spec w (working_on (actor w s)) os (rs_calls s) c out (ri_once _ _ _ _ Hb w) Ec) as [Hout Hcalls].
  { intros n p m Hc. destruct (Hw _ _ _ _ Hc) as (b & Hm & _). by exists (w, b). }
  assert (Htold : forall n, told_to n (tr ++ SvoActor w e os :: out) = told_to n tr ++ told_to n out).
  { intros n. by rewrite told_to_app. }
  assert (Hsub : forall n p v, c !! n = Some (p, Some v) -> rs_calls s !! n = Some (p, Some v)).
  { intros n p v Hc. destruct (Hcalls n) as [(H1 & _)|(p0 & m0 & o0 & t0 & p0' & e0 & _ & _ & _ & _ & H5 & _)]; congruence. }
  assert (Hdom : forall n, rs_calls s !! n = None -> c !! n = None /\ told_to n out = []).
  { intros n Hn. destruct (Hcalls n) as [(H1 & H2 & _)|(p0 & m0 & o0 & t0 & p0' & e0 & H1 & _)]; [|congruence]. by rewrite H1. }
  (* a call that goes on was pending, or asked in vain just now *)
  split; [split|].
  - split.
    + intros w'. rewrite actor_events_app, actor_obs_app, ra_run_app.
      rewrite (ri_actor _ _ _ _ Hb w').
      destruct (actor_told w' out Hout) as [H1 H2].
      change (SvoActor w e os :: out) with ([SvoActor w e os] ++ out). rewrite actor_events_app, actor_obs_app, H1, H2, !app_nil_r.
      destruct (decide (w' = w)) as [->|Hne].
      * unfold actor_events, actor_obs. cbn. rewrite !decide_True by done. cbn [ra_run]. rewrite Es, actor_own.
        by rewrite !app_nil_r.
      * unfold actor_events, actor_obs. cbn. rewrite !decide_False by done. cbn [ra_run]. rewrite actor_same by done.
        by rewrite !app_nil_r.
    + rewrite calls_own, next_own. intros n p v Hc. rewrite Htold.
      destruct (Hcalls n) as [(H1 & H2 & _)|(p0 & m0 & o0 & t0 & p0' & e0 & H1 & _ & _ & H4 & H5 & H6)].
      * rewrite H1 in Hc. destruct (ri_call _ _ _ _ Hb n p v Hc) as (Hlt & c0 & Hin & Hp). split; [done|].
        exists c0. rewrite H2, app_nil_r. split; [apply elem_of_app; by left|done].
      * rewrite H5 in Hc. injection Hc as <- <-. destruct (ri_call _ _ _ _ Hb n _ _ H1) as (Hlt & c0 & Hin & Hp). split; [done|].
        exists c0. split; [apply elem_of_app; by left|]. rewrite H6, p_run_app, Hp. cbn [p_run].
        by rewrite (resume_step _ _ _ _ H4).
    + rewrite next_own. intros n Hn. rewrite Htold, (ri_new _ _ _ _ Hb n Hn).
      destruct (rs_calls s !! n) as [[p v]|] eqn:E; [|by destruct (Hdom n E) as [_ ->]].
      destruct (ri_call _ _ _ _ Hb n p v E) as [Hlt _]. lia.
    + intros w' n n' p p' m. rewrite calls_own. intros H1 H2. apply Hsub in H1, H2. by apply (ri_once _ _ _ _ Hb w' n n' p p' m).
    + rewrite calls_own, next_own. intros n r Hr. rewrite Htold.
      assert (Hr' : SvoRet n r ∈ tr).
      { apply elem_of_app in Hr as [Hr|Hr]; [done|]. apply elem_of_cons in Hr as [Hr|Hr]; [done|].
        apply Hout in Hr as (? & ? & ?). done. }
      destruct (ri_ret _ _ _ _ Hb n r Hr') as (Hn & Hlt & c0 & Hin & Hp). destruct (Hdom n Hn) as [-> ->].
      split; [done|]. split; [done|]. exists c0. rewrite app_nil_r. split; [apply elem_of_app; by left|done].
  - rewrite calls_own. intros n p w' m Hc. pose proof (Hsub _ _ _ Hc) as Hs. destruct (Hw _ _ _ _ Hs) as (b & Hm & Hp).
    exists b. split; [done|]. destruct (decide (w' = w)) as [->|Hne].
    + rewrite actor_own. destruct (Hcalls n) as [(_ & _ & H3)|(p0 & m0 & o0 & t0 & p0' & e0 & _ & _ & _ & _ & H5 & _)]; [|congruence].
      destruct Hp as [[Hp He]|(_ & -> & ->)].
      * destruct (pending_step k _ _ _ _ m b Hi Hp Es (He eq_refl)) as [Hq|(ob & t & Hob & Hset)]; [done|].
        by destruct (H3 p m Hs ob t Hob).
      * destruct (send_pending _ _ _ _ _ Es) as [[Hq _]|[-> _]]; [done|].
        exfalso. apply (H3 p _ Hs (ObFail (ra_next (actor w s))) _ (ltac:(by left)) eq_refl).
    + rewrite actor_same by done. destruct Hp as [[Hp _]|(-> & _)]; done.
  - intros o1 n ev o2 w' op x Ho Hx.
    destruct o1 as [|y o1]; [done|]. injection Ho as <- Ho.
    assert (Hn : told_to n out <> []).
    { rewrite Ho, told_to_app. cbn. rewrite decide_True by done. intros Hf. by apply app_eq_nil in Hf as [_ Hf]. }
    destruct (Hcalls n) as [(_ & H2 & _)|(p & m & ob & t & p' & e0 & H1 & H2 & H3 & H4 & _ & H6)]; [done|].
    assert (ev = e0) as ->.
    { assert (He : ev ∈ told_to n out).
      { rewrite Ho, told_to_app. apply elem_of_app. right. cbn. rewrite decide_True by done. by left. }
      rewrite H6 in He. by apply elem_of_list_singleton in He. }
    destruct (Hw _ _ _ _ H1) as (b & Hm & Hp). destruct (exchange_resume _ _ _ _ _ _ _ _ _ H4 Hx Hm) as (-> & Hop & Hcl & Hxt).
    exists [], e, os, o1. split; [done|]. split.
    { assert (Hpre : forall o, o ∈ o1 -> exists n e, o = SvoTold n e).
      { intros z Hz. apply Hout. rewrite Ho. apply elem_of_app. by left. }
      by destruct (actor_told w' o1 Hpre). }
    rewrite app_nil_r.
    assert (Hans : forall y, ob = ObAnswer m y -> exists r op' st, e = ReReply r /\ b = AcCommand op' st /\
      ra_cur (actor w' s) = Some (m, op', st, true) /\ rc_answer op' r = Val y).
    { intros y ->. destruct Hp as [[Hp _]|(_ & -> & ->)].
      - destruct (answered_step k _ _ _ _ m b y Hi Hp Es H2) as [(r & op' & st & -> & -> & Hcur & Hans)|[-> ->]]; [|done].
        by exists r, op', st.
      - destruct (send_pending _ _ _ _ _ Es) as [[_ ->]|[-> _]]; [by apply elem_of_nil in H2|]. by apply elem_of_list_singleton in H2. }
    assert (Hkind : (exists y, ob = ObAnswer m y /\ t = TdAnswer y) \/
      (ob = ObFail m /\ (working_on (actor w' s) = None -> t = TdClosed) /\ forall y, t <> TdAnswer y)).
    { destruct ob as [m' y|m'| | | | | |]; try discriminate H3; injection H3 as <- H3; [left; by exists y|]. right. split; [done|].
      case_decide; subst t; split; try done. intros Hf. congruence. }
    destruct Hkind as [(y & -> & ->)|(-> & Hclosed & Hno)].
    + destruct (Hans y eq_refl) as (r & op' & st & -> & -> & Hcur & Hval). injection Hop as ->. split.
      * destruct x as [x|]; [|by destruct (Hxt r y Hval)]. injection Hxt as ->. exists r. split; [done|]. split; [done|].
        unfold linked in Hlk. by rewrite Hcur in Hlk.
      * intros Hd. destruct (alive_died _ _ _ _ Hrun) as [[_ Hnd]|(_ & _ & Hc & _)]; [done|congruence].
    + split.
      * destruct x as [x|]; [by destruct (Hno x)|].
        destruct (fail_step _ _ _ _ _ _ Es H2) as [Hd|[Ha _]]; [apply elem_of_app; by right|].
        destruct (alive_died _ _ _ _ Hrun) as [[Hal _]|(_ & Hd & _)]; [congruence|apply elem_of_app; by left].
      * intros Hd. apply Hcl, Hclosed. destruct (alive_died _ _ _ _ Hrun) as [[_ Hnd]|(_ & _ & Hc & _)]; [done|].
        unfold working_on. by rewrite Hc.
Qed.

Lemma told_skip n o : (forall n' e, o <> SvoTold n' e) -> told_to n [o] = [].
Proof. intros H. unfold told_to. cbn. destruct o; try done. by destruct (H n0 e). Qed.
Lemma actor_skip w o : (forall w' e os, o <> SvoActor w' e os) -> actor_events w [o] = [] /\ actor_obs w [o] = [].
Proof. intros H. destruct o; try done. by destruct (H w0 e o). Qed.
(** The call is over. *)
Lemma rbase_delete k l tr s n o : rbase k l tr s -> is_Some (rs_calls s !! n) ->
  (o = SvoCancel n \/ exists r, o = SvoRet n r /\ rs_calls s !! n = Some (PRet r, None)) ->
  rbase k l (tr ++ [o]) (set_calls (delete n (rs_calls s)) s).
Proof.
  intros Hb [[p v] Hn] Ho.
  assert (Hskip : forall n', told_to n' (tr ++ [o]) = told_to n' tr).
  { intros n'. rewrite told_to_app, told_skip; [by rewrite app_nil_r|]. by destruct Ho as [->|(r & -> & _)]. }
  assert (Hskip' : forall w, actor_events w [o] = [] /\ actor_obs w [o] = []).
  { intros w. apply actor_skip. by destruct Ho as [->|(r & -> & _)]. }
  destruct (ri_call _ _ _ _ Hb n p v Hn) as (Hlt & c0 & Hin & Hp).
  split; cbn [set_calls rs_calls rs_next].
  - intros w. rewrite actor_events_app, actor_obs_app. destruct (Hskip' w) as [-> ->]. rewrite !app_nil_r, actor_calls.
    apply (ri_actor _ _ _ _ Hb).
  - intros n' p' v' Hc. apply lookup_delete_Some in Hc as [Hne Hc].
    destruct (ri_call _ _ _ _ Hb n' p' v' Hc) as (Hlt' & c & Hin' & Hp'). split; [done|]. exists c. rewrite Hskip.
    split; [apply elem_of_app; by left|done].
  - intros n' Hn'. rewrite Hskip. by apply (ri_new _ _ _ _ Hb).
  - intros w x x' y y' m. rewrite !lookup_delete_Some. intros [_ H1] [_ H2]. by apply (ri_once _ _ _ _ Hb w x x' y y' m).
  - intros n' r Hr. apply elem_of_app in Hr as [Hr|Hr].
    + destruct (ri_ret _ _ _ _ Hb n' r Hr) as (H1 & H2 & c & H3 & H4). split; [|split; [done|]].
      * apply lookup_delete_None. by right.
      * exists c. rewrite Hskip. split; [apply elem_of_app; by left|done].
    + apply elem_of_list_singleton in Hr. destruct Ho as [->|(r' & -> & Hn')]; [done|]. injection Hr as -> ->.
      rewrite Hn in Hn'. injection Hn' as -> ->. split; [apply lookup_delete|]. split; [done|].
      exists c0. rewrite Hskip. split; [apply elem_of_app; by left|done].
Qed.
Lemma told_good_none tr o : (forall n e, SvoTold n e ∈ o -> exchange_of e = None) -> told_good tr o.
Proof.
  intros H o1 n e o2 w op x -> He. rewrite (H n e) in He; [done|]. apply elem_of_app. right. by left.
Qed.
Lemma rinv_step k l tr s e s' o : rinv k l tr s -> rs_step k l s e = Some (s', o) ->
  rinv k l (tr ++ o) s' /\ told_good tr o.
Proof.
  intros [Hb Hw] H. destruct e as [c|n|w e|n x|n|n]; cbn [rs_step] in H.
  - injection H as <- <-.
    assert (Hskip : forall n', told_to n' (tr ++ [SvoCall (rs_next s) c]) = told_to n' tr).
    { intros n'. rewrite told_to_app, told_skip; [by rewrite app_nil_r|done]. }
    assert (Hfresh : rs_calls s !! rs_next s = None).
    { destruct (rs_calls s !! rs_next s) as [[p v]|] eqn:E; [|done]. destruct (ri_call _ _ _ _ Hb _ _ _ E). lia. }
    split; [|apply told_good_none; intros n e Hx; by apply elem_of_list_singleton in Hx].
    split; [split|]; cbn [rs_calls rs_next].
    + intros w. rewrite actor_events_app, actor_obs_app. destruct (actor_skip w (SvoCall (rs_next s) c)) as [-> ->]; [done|].
      rewrite !app_nil_r. pose proof (ri_actor _ _ _ _ Hb w) as Hr. by destruct w.
    + intros n p v Hc. apply lookup_insert_Some in Hc as [[<- [= <- <-]]|[Hne Hc]].
      * split; [lia|]. exists c. split; [apply elem_of_app; right; by left|]. rewrite Hskip.
        by rewrite (ri_new _ _ _ _ Hb) by lia.
      * destruct (ri_call _ _ _ _ Hb _ _ _ Hc) as (Hlt & c0 & Hin & Hp). split; [lia|]. exists c0. rewrite Hskip.
        split; [apply elem_of_app; by left|done].
    + intros n Hn. rewrite Hskip. apply (ri_new _ _ _ _ Hb). lia.
    + intros w n n' p p' m H1 H2. apply lookup_insert_Some in H1 as [[_ [=]]|[_ H1]].
      apply lookup_insert_Some in H2 as [[_ [=]]|[_ H2]]. by apply (ri_once _ _ _ _ Hb w n n' p p' m).
    + intros n r Hr. apply elem_of_app in Hr as [Hr|Hr]; [|by apply elem_of_list_singleton in Hr].
      destruct (ri_ret _ _ _ _ Hb n r Hr) as (H1 & H2 & c0 & H3 & H4). split; [|split; [lia|]].
      * rewrite lookup_insert_ne by lia. done.
      * exists c0. rewrite Hskip. split; [apply elem_of_app; by left|done].
    + intros n p w m Hc. apply lookup_insert_Some in Hc as [[_ [=]]|[_ Hc]].
      destruct (Hw _ _ _ _ Hc) as (a & H1 & H2). exists a. split; [done|]. by destruct w.
  - destruct (rs_calls s !! n) as [[p [v|]]|] eqn:En; try done. destruct (message p) as [[w a]|] eqn:Em; [|done].
    apply (actor_step_inv k l tr _ w (ReSend a true)) in H; [done|..].
    + split; cbn [set_calls rs_calls rs_next].
      * intros w'. rewrite actor_calls. apply (ri_actor _ _ _ _ Hb).
      * intros n' p' v' Hc. apply lookup_insert_Some in Hc as [[<- [= <- <-]]|[_ Hc]]; by eapply (ri_call _ _ _ _ Hb).
      * apply (ri_new _ _ _ _ Hb).
      * intros w' x x' y y' m H1 H2.
        assert (Hold : forall x y, rs_calls s !! x = Some (y, Some (w, m)) -> m <> ra_next (actor w s)).
        { intros x0 y0 Hx. destruct (Hw _ _ _ _ Hx) as (b & _ & Hp).
          pose proof (pending_lt _ _ _ (ra_inv _ _ _ _ (ri_actor _ _ _ _ Hb w)) Hp). lia. }
        apply lookup_insert_Some in H1 as [[<- H1]|[N1 H1]]; apply lookup_insert_Some in H2 as [[<- H2]|[N2 H2]]; try done.
        -- injection H1 as <- <- <-. by destruct (Hold _ _ H2).
        -- injection H2 as <- <- <-. by destruct (Hold _ _ H1).
        -- by apply (ri_once _ _ _ _ Hb w' x x' y y' m).
      * intros n' r Hr. destruct (ri_ret _ _ _ _ Hb n' r Hr) as (H1 & H2 & H3). split; [|done].
        rewrite lookup_insert_ne; [done|]. intros ->. by rewrite En in H1.
    + cbn [set_calls rs_calls]. intros n' p' w' m Hc. rewrite !actor_calls.
      apply lookup_insert_Some in Hc as [[<- [= <- <- <-]]|[_ Hc]].
      * exists a. split; [done|]. right. done.
      * destruct (Hw _ _ _ _ Hc) as (b & H1 & H2). exists b. split; [done|]. by left.
  - assert (Hgen : forall e', (forall n p m, rs_calls s !! n = Some (p, Some (w, m)) -> e' <> ReGone m) ->
      actor_step k w e' s = Some (s', o) -> rinv k l (tr ++ o) s' /\ told_good tr o).
    { intros e' Hg Hs. apply (actor_step_inv k l tr s w e'); [done| |done]. intros n p w' m Hc.
      destruct (Hw _ _ _ _ Hc) as (a & H1 & H2). exists a. split; [done|]. left. split; [done|]. intros ->. by apply (Hg n p). }
    destruct e as [a b|m| |r|u op|u r|u]; try (eapply Hgen; [|exact H]; by intros).
    destruct (waiter w m (rs_calls s)) eqn:Ew; [done|]. apply (Hgen (ReGone m)); [|done].
    intros n p m' Hc [= ->]. by apply (waiter_none _ _ _ n p Ew).
  - destruct (rs_calls s !! n) as [[p [v|]]|] eqn:En; try done. destruct (message p) as [[w a]|] eqn:Em; [done|].
    destruct (respond l 0 ∅ p x) as [[[[sv p'] pe] f]|] eqn:Er; [|done]. injection H as <- <-.
    pose proof (an_step _ _ _ _ _ _ _ _ (respond_answered _ _ _ _ _ _ _ _ _ Er)) as Hstep.
    assert (Hx : exchange_of pe = None).
    { destruct p; try discriminate Em; destruct x; try discriminate Er; cbn in Er; [by injection Er as _ _ <- _..|].
      destruct (verdict_ok _ _ _); [|done]. by injection Er as _ _ <- _. }
    assert (Hskip : forall n', n' <> n -> told_to n' (tr ++ [SvoTold n pe]) = told_to n' tr).
    { intros n' Hne. rewrite told_to_app, told_other by done. by rewrite app_nil_r. }
    split; [|apply told_good_none; intros n' e Hi; apply elem_of_list_singleton in Hi; by injection Hi as -> ->].
    destruct (ri_call _ _ _ _ Hb _ _ _ En) as (Hlt & c0 & Hin & Hp).
    split; [split|]; cbn [set_calls rs_calls rs_next].
    + intros w. rewrite actor_events_app, actor_obs_app. destruct (actor_skip w (SvoTold n pe)) as [-> ->]; [done|].
      rewrite !app_nil_r, actor_calls. apply (ri_actor _ _ _ _ Hb).
    + intros n' p1 v Hc. apply lookup_insert_Some in Hc as [[<- [= <- <-]]|[Hne Hc]].
      * split; [done|]. exists c0. split; [apply elem_of_app; by left|]. rewrite told_to_app, told_own.
        by apply (p_run_snoc _ _ _ p).
      * destruct (ri_call _ _ _ _ Hb _ _ _ Hc) as (Hlt' & c1 & Hin' & Hp'). split; [done|]. exists c1.
        rewrite Hskip by done. split; [apply elem_of_app; by left|done].
    + intros n' Hn. rewrite Hskip by lia. by apply (ri_new _ _ _ _ Hb).
    + intros w x1 x' y y' m H1 H2. apply lookup_insert_Some in H1 as [[_ [=]]|[_ H1]].
      apply lookup_insert_Some in H2 as [[_ [=]]|[_ H2]]. by apply (ri_once _ _ _ _ Hb w x1 x' y y' m).
    + intros n' r Hr. apply elem_of_app in Hr as [Hr|Hr]; [|by apply elem_of_list_singleton in Hr].
      destruct (ri_ret _ _ _ _ Hb n' r Hr) as (H1 & H2 & c1 & H3 & H4).
      assert (n' <> n) by (intros ->; by rewrite En in H1). split; [by rewrite lookup_insert_ne|]. split; [done|].
      exists c1. rewrite Hskip by done. split; [apply elem_of_app; by left|done].
    + intros n' p1 w m Hc. apply lookup_insert_Some in Hc as [[_ [=]]|[_ Hc]]. rewrite actor_calls. by apply (Hw n').
  - destruct (rs_calls s !! n) as [[p v]|] eqn:En; [|done]. destruct p; try discriminate. destruct v; [done|].
    injection H as <- <-. split; [|apply told_good_none; intros n' e Hi; by apply elem_of_list_singleton in Hi].
    split; [apply rbase_delete; [done|by eexists|right; by exists r]|]. cbn [set_calls rs_calls].
    intros n' p w m Hc. apply lookup_delete_Some in Hc as [_ Hc]. rewrite actor_calls. by apply (Hw n').
  - destruct (rs_calls s !! n) as [[p [[w m]|]]|] eqn:En; [| |done].
    + destruct (actor_step _ _ _ _) as [[s1 o1]|] eqn:Es; [|done]. injection H as <- <-.
      apply (actor_step_inv k l (tr ++ [SvoCancel n]) _ w (ReGone m)) in Es as [Hi Hg].
      * rewrite <- app_assoc in Hi. split; [done|]. intros o2 n' e o3 w' op x Ho Hx.
        destruct o2 as [|y o2]; [done|]. injection Ho as <- Ho.
        destruct (Hg o2 n' e o3 w' op x Ho Hx) as (o0 & r & os & mid & -> & H1 & H2).
        exists (SvoCancel n :: o0), r, os, mid. split; [done|]. split; [done|]. by rewrite <- app_assoc in H2.
      * apply rbase_delete; [done|by eexists|by left].
      * cbn [set_calls rs_calls]. intros n' p' w' m' Hc. apply lookup_delete_Some in Hc as [Hne Hc]. rewrite !actor_calls.
        destruct (Hw _ _ _ _ Hc) as (a & H1 & H2). exists a. split; [done|]. left. split; [done|]. intros -> [= ->].
        by apply Hne, (ri_once _ _ _ _ Hb w n n' p p' m').
    + injection H as <- <-. split; [|apply told_good_none; intros n' e Hi; by apply elem_of_list_singleton in Hi].
      split; [apply rbase_delete; [done|by eexists|by left]|]. cbn [set_calls rs_calls].
      intros n' p' w m Hc. apply lookup_delete_Some in Hc as [_ Hc]. rewrite actor_calls. by apply (Hw n').
Qed.
Lemma rinv_init k l : rinv k l [] rs_init.
Proof.
  split; [split|]; cbn.
  - by intros [].
  - intros n p v H. by rewrite lookup_empty in H.
  - done.
  - intros w n n' p p' m H. by rewrite lookup_empty in H.
  - intros n r H. by apply elem_of_nil in H.
  - intros n p w m H. by rewrite lookup_empty in H.
Qed.
Lemma run_rinv k l es s tr : rs_run k l rs_init es = Some (s, tr) -> rinv k l tr s.
Proof.
  revert s tr. induction es as [|e es IH] using rev_ind; intros s tr H; [injection H as <- <-; apply rinv_init|].
  apply rs_run_snoc in H as (s1 & tr1 & o & H1 & H2 & ->). by apply (rinv_step k l tr1 s1 e s o (IH _ _ H1)).
Qed.
(** Every answer of an actor is the meaning of Redis's reply to the command that
    was sent for the request. *)
Lemma run_told k l es : forall tr s s' o, rinv k l tr s -> rs_run k l s es = Some (s', o) -> rinv k l (tr ++ o) s' /\ told_good tr o.
Proof.
  induction es as [|e es IH] using rev_ind; intros tr s s' o Hi H.
  { injection H as <- <-. rewrite app_nil_r. split; [done|]. intros o1 n e o2 w op x Ho. by destruct o1. }
  apply rs_run_snoc in H as (s1 & tr1 & o' & H1 & H2 & ->). destruct (IH _ _ _ _ Hi H1) as [Hi1 Hg1].
  destruct (rinv_step k l _ s1 e s' o' Hi1 H2) as [Hi2 Hg]. rewrite app_assoc. split; [done|].
  intros o1 n ev o2 w op x Ho Hx. apply app_eq_inv in Ho as [(m & Ho1 & Ho2)|(m & Ho1 & Ho2)].
  - destruct m as [|y m].
    + rewrite app_nil_r in Ho1. subst tr1. cbn in Ho2. destruct (Hg [] n ev o2 w op x (eq_sym Ho2) Hx) as (o0 & r & os & mid & Hbad & _).
      by destruct o0.
    + injection Ho2 as <- Ho2. destruct (Hg1 o1 n ev m w op x Ho1 Hx) as (o0 & r & os & mid & H3 & H4).
      exists o0, r, os, mid. done.
  - subst o1. destruct (Hg m n ev o2 w op x Ho2 Hx) as (o0 & r & os & mid & -> & H3 & H4).
    exists (tr1 ++ o0), r, os, mid. rewrite <- app_assoc in H4. split; [by rewrite <- app_assoc|]. done.
Qed.

(** * What a step puts into the trace *)
Definition no_actor (o : list rsout) : Prop := forall w e os, SvoActor w e os ∉ o.
Lemma no_actor_nil o : no_actor o -> forall w, actor_events w o = [] /\ actor_obs w o = [].
Proof.
  induction o as [|x o IH]; intros H w; [done|]. destruct (IH ltac:(intros w' e os Hx; apply (H w' e os); by right) w) as [H1 H2].
  destruct x; try done. exfalso. apply (H w0 e o0). by left.
Qed.
Lemma no_actor_app o1 o2 : no_actor o1 -> no_actor o2 -> no_actor (o1 ++ o2).
Proof. intros H1 H2 w e os Hx. apply elem_of_app in Hx as [Hx|Hx]; [by apply H1 in Hx|by apply H2 in Hx]. Qed.
Lemma settle_all_told w cur os : forall c c' out, settle_all w cur os c = (c', out) -> forall o, o ∈ out -> exists n e, o = SvoTold n e.
Proof.
  induction os as [|x os IH]; intros c c' out H o Ho; cbn [settle_all] in H; [injection H as <- <-; by apply elem_of_nil in Ho|].
  destruct (match settled_by cur x with Some (m, t) => settle w m t c | None => (c, []) end) as [c1 o1] eqn:E1.
  destruct (settle_all w cur os c1) as [c2 o2] eqn:E2. injection H as <- <-. apply elem_of_app in Ho as [Ho|Ho]; [|by apply (IH _ _ _ E2)].
  destruct (settled_by cur x) as [[m t]|]; [|injection E1 as <- <-; by apply elem_of_nil in Ho]. unfold settle in E1.
  destruct (waiter w m c); [|injection E1 as <- <-; by apply elem_of_nil in Ho].
  destruct (c !! n) as [[p v]|]; [|injection E1 as <- <-; by apply elem_of_nil in Ho].
  destruct (resume p t) as [[p' e]|]; injection E1 as <- <-; [|by apply elem_of_nil in Ho].
  apply elem_of_list_singleton in Ho. by exists n, e.
Qed.
Lemma actor_step_out k w e s s' o : actor_step k w e s = Some (s', o) ->
  exists os out, o = SvoActor w e os :: out /\ (forall x, x ∈ out -> exists n e, x = SvoTold n e) /\ rs_next s' = rs_next s.
Proof.
  unfold actor_step. destruct (ra_step k (actor w s) e) as [[a os]|]; [|done].
  destruct (settle_all w (working_on (actor w s)) os (rs_calls s)) as [c out] eqn:Ec. intros [= <- <-].
  exists os, out. split; [done|]. split; [by apply (settle_all_told _ _ _ _ _ _ Ec)|by destruct w].
Qed.
(** Where the events of an actor come from. *)
Definition source (s : rsys) (x : rsevent) (w : which) (e : revent) : Prop :=
  match x with
  | SvAsk n => exists p a, message p = Some (w, a) /\ e = ReSend a true
  | SvActor w' e' => w' = w /\ e' = e
  | SvCancel n => exists m, e = ReGone m
  | _ => False
  end.
Lemma step_shape k l s x s' o : rs_step k l s x = Some (s', o) ->
  (no_actor o \/ exists pre w e os post, o = pre ++ SvoActor w e os :: post /\ no_actor pre /\ no_actor post /\ source s x w e) /\
  (forall n c, SvoCall n c ∈ o -> n = rs_next s /\ o = [SvoCall n c]) /\ (rs_next s <= rs_next s')%nat.
Proof.
  intros H.
  assert (Hact : forall pre w e s1, (pre = [] \/ exists n, pre = [SvoCancel n]) -> rs_next s1 = rs_next s -> forall o', actor_step k w e s1 = Some (s', o') ->
    o = pre ++ o' -> source s x w e ->
    (no_actor o \/ exists pre w e os post, o = pre ++ SvoActor w e os :: post /\ no_actor pre /\ no_actor post /\ source s x w e) /\
    (forall n c, SvoCall n c ∈ o -> n = rs_next s /\ o = [SvoCall n c]) /\ (rs_next s <= rs_next s')%nat).
  { intros pre w e s1 Hpre Hn o' Hs -> Hsrc. apply actor_step_out in Hs as (os & out & -> & Hout & Hn').
    assert (Hno : no_actor out) by (intros w' e' os' Hx; apply Hout in Hx as (? & ? & ?); done).
    assert (Hp : no_actor pre) by (destruct Hpre as [->|[n ->]]; intros w' e' os' Hx;
      [by apply elem_of_nil in Hx|by apply elem_of_list_singleton in Hx]).
    split; [right; by exists pre, w, e, os, out|]. split; [|lia].
    intros n c Hx. exfalso. apply elem_of_app in Hx as [Hx|Hx].
    - destruct Hpre as [->|[n' ->]]; [by apply elem_of_nil in Hx|by apply elem_of_list_singleton in Hx].
    - apply elem_of_cons in Hx as [Hx|Hx]; [done|]. by apply Hout in Hx as (? & ? & ?). }
  assert (Hone : forall y, (forall w e os, y <> SvoActor w e os) -> no_actor [y]).
  { intros y Hy w e os Hx. apply elem_of_list_singleton in Hx. by apply (Hy w e os). }
  destruct x as [c|n|w e|n y|n|n]; cbn [rs_step] in H.
  - injection H as <- <-. split; [left; by apply Hone|]. split; [|cbn; lia]. intros n c' Hx.
    apply elem_of_list_singleton in Hx. by injection Hx as -> ->.
  - destruct (rs_calls s !! n) as [[p [v|]]|]; try done. destruct (message p) as [[w a]|] eqn:Em; [|done].
    eapply (Hact [] w (ReSend a true)); [by left| |exact H|done|by exists p, a]; done.
  - assert (Hs : actor_step k w e s = Some (s', o)) by (destruct e; try done; by destruct (waiter w n (rs_calls s))).
    by apply (Hact [] w e s (or_introl eq_refl) eq_refl _ Hs eq_refl).
  - destruct (rs_calls s !! n) as [[p [v|]]|]; try done. destruct (message p) as [[w a]|]; [done|].
    destruct (respond l 0 ∅ p y) as [[[[sv p'] pe] f]|]; [|done]. injection H as <- <-.
    split; [left; by apply Hone|]. split; [|done]. intros n' c Hx. by apply elem_of_list_singleton in Hx.
  - destruct (rs_calls s !! n) as [[p v]|]; [|done]. destruct p; try discriminate. destruct v; [done|].
    injection H as <- <-. split; [left; by apply Hone|]. split; [|done]. intros n' c Hx. by apply elem_of_list_singleton in Hx.
  - destruct (rs_calls s !! n) as [[p [[w m]|]]|]; [| |done].
    + destruct (actor_step _ _ _ _) as [[s1 o1]|] eqn:Es; [|done]. injection H as <- <-.
      eapply (Hact [SvoCancel n] w (ReGone m)); [right; by exists n| |exact Es|done|by exists m]; done.
    + injection H as <- <-. split; [left; by apply Hone|]. split; [|done]. intros n' c Hx. by apply elem_of_list_singleton in Hx.
Qed.
Lemma later_calls k l es : forall s s' tr n c, rs_run k l s es = Some (s', tr) -> SvoCall n c ∈ tr -> (rs_next s <= n)%nat.
Proof.
  induction es as [|e es IH]; intros s s' tr n c H Hx; cbn [rs_run] in H; [injection H as <- <-; by apply elem_of_nil in Hx|].
  destruct (rs_step k l s e) as [[s1 o1]|] eqn:E1; [|done]. destruct (rs_run k l s1 es) as [[s2 o2]|] eqn:E2; [|done].
  injection H as <- <-. destruct (step_shape _ _ _ _ _ _ E1) as (_ & Hc & Hn). apply elem_of_app in Hx as [Hx|Hx].
  - destruct (Hc _ _ Hx). lia.
  - pose proof (IH _ _ _ _ _ E2 Hx). lia.
Qed.
(** The events of the actors in a run of [es]. *)
Lemma run_sources k l es s tr : rs_run k l rs_init es = Some (s, tr) ->
  forall w e, e ∈ actor_events w tr -> exists s1 x, x ∈ es /\ source s1 x w e.
Proof.
  revert s tr. induction es as [|x es IH] using rev_ind; intros s tr H w e He; [injection H as <- <-; by apply elem_of_nil in He|].
  apply rs_run_snoc in H as (s1 & tr1 & o & H1 & H2 & ->). rewrite actor_events_app in He. apply elem_of_app in He as [He|He].
  - destruct (IH _ _ H1 w e He) as (s2 & y & Hy & Hs). exists s2, y. split; [apply elem_of_app; by left|done].
  - destruct (step_shape _ _ _ _ _ _ H2) as ([Hno|(pre & w' & e' & os & post & -> & Hp & Hq & Hs)] & _).
    + destruct (no_actor_nil _ Hno w) as [H3 _]. rewrite H3 in He. by apply elem_of_nil in He.
    + rewrite actor_events_app in He. change (SvoActor w' e' os :: post) with ([SvoActor w' e' os] ++ post) in He.
      rewrite actor_events_app in He. destruct (no_actor_nil _ Hp w) as [H3 _]. destruct (no_actor_nil _ Hq w) as [H4 _].
      rewrite H3, H4, app_nil_r in He. cbn in He. destruct (decide (w = w')) as [->|]; [|by apply elem_of_nil in He].
      apply elem_of_list_singleton in He as ->. exists s1, x. split; [apply elem_of_app; right; by left|done].
Qed.
(** An actor's story up to any point of the trace. *)
Lemma run_prefix k l es s tr : rs_run k l rs_init es = Some (s, tr) ->
  forall w tr1 tr2, tr = tr1 ++ tr2 -> exists a, ra_run k ra_init (actor_events w tr1) = Some (a, actor_obs w tr1).
Proof.
  revert s tr. induction es as [|x es IH] using rev_ind; intros s tr H w tra trb Htr.
  { injection H as <- <-. symmetry in Htr. apply app_eq_nil in Htr as [-> ->]. by exists ra_init. }
  pose proof (proj1 (run_rinv _ _ _ _ _ H)) as Hb.
  apply rs_run_snoc in H as (s1 & tr1 & o & H1 & H2 & ->). apply app_eq_inv in Htr as [(m & Ho1 & Ho2)|(m & Ho1 & Ho2)].
  - by apply (IH _ _ H1 w tra m).
  - subst tra. destruct (step_shape _ _ _ _ _ _ H2) as ([Hno|(pre & w' & e' & os & post & Ho & Hp & Hq & Hs)] & _).
    + destruct (no_actor_nil m) with w as [H3 H4]; [intros w' e' os Hx; apply (Hno w' e' os); rewrite Ho2; apply elem_of_app; by left|].
      rewrite actor_events_app, actor_obs_app, H3, H4, !app_nil_r. exact (IH _ _ H1 w tr1 [] (eq_sym (app_nil_r _))).
    + assert (Hnone : no_actor m -> exists a, ra_run k ra_init (actor_events w (tr1 ++ m)) = Some (a, actor_obs w (tr1 ++ m))).
      { intros Hm. destruct (no_actor_nil _ Hm w) as [H3 H4]. rewrite actor_events_app, actor_obs_app, H3, H4, !app_nil_r.
        exact (IH _ _ H1 w tr1 [] (eq_sym (app_nil_r _))). }
      rewrite Ho2 in Ho. apply app_eq_inv in Ho as [(m' & Hm & Hr)|(m' & Hm & Hr)].
      * destruct m' as [|y m']; [rewrite app_nil_r in Hm; subst m; by apply Hnone|]. injection Hr as <- Hr.
        exists (actor w s). pose proof (ri_actor _ _ _ _ Hb w) as Hrun. subst m o.
        destruct (no_actor_nil trb) with w as [H3 H4]; [intros w1 e1 os1 Hx; apply (Hq w1 e1 os1); rewrite Hr; apply elem_of_app; by right|].
        rewrite (app_assoc tr1), actor_events_app, actor_obs_app in Hrun. by rewrite H3, H4, !app_nil_r in Hrun.
      * apply Hnone. intros w1 e1 os1 Hx. apply (Hp w1 e1 os1). rewrite Hm. apply elem_of_app. by left.
Qed.

(** * Calls do not get lost *)
Lemma settle_all_dom w cur os : forall c c' out n, settle_all w cur os c = (c', out) -> is_Some (c !! n) -> is_Some (c' !! n).
Proof.
  induction os as [|x os IH]; intros c c' out n H Hn; cbn [settle_all] in H; [by injection H as <- <-|].
  destruct (match settled_by cur x with Some (m, t) => settle w m t c | None => (c, []) end) as [c1 o1] eqn:E1.
  destruct (settle_all w cur os c1) as [c2 o2] eqn:E2. injection H as <- <-. apply (IH _ _ _ n E2).
  destruct (settled_by cur x) as [[m t]|]; [|by injection E1 as <- <-]. unfold settle in E1.
  destruct (waiter w m c) as [n'|]; [|by injection E1 as <- <-].
  destruct (c !! n') as [[p v]|] eqn:En; [|by injection E1 as <- <-].
  destruct (resume p t) as [[p' e]|]; injection E1 as <- <-; [|done].
  destruct (decide (n = n')) as [->|]; [by rewrite lookup_insert|by rewrite lookup_insert_ne].
Qed.
Lemma actor_step_dom k w e s s' o n : actor_step k w e s = Some (s', o) -> is_Some (rs_calls s !! n) -> is_Some (rs_calls s' !! n).
Proof.
  unfold actor_step. destruct (ra_step k (actor w s) e) as [[a os]|]; [|done].
  destruct (settle_all w (working_on (actor w s)) os (rs_calls s)) as [c out] eqn:Ec. intros [= <- <-]. rewrite calls_own.
  by apply (settle_all_dom _ _ _ _ _ _ _ Ec).
Qed.
Lemma step_present k l s e s' o n : rs_step k l s e = Some (s', o) ->
  (is_Some (rs_calls s !! n) -> is_Some (rs_calls s' !! n) \/ SvoCancel n ∈ o \/ exists r, SvoRet n r ∈ o) /\
  (forall c, SvoCall n c ∈ o -> is_Some (rs_calls s' !! n)).
Proof.
  intros H. split.
  - intros Hn. destruct e as [c|m|w e|m x|m|m]; cbn [rs_step] in H.
    + left. injection H as <- <-. cbn. destruct (decide (n = rs_next s)) as [->|]; [by rewrite lookup_insert|by rewrite lookup_insert_ne].
    + left. destruct (rs_calls s !! m) as [[p [v|]]|] eqn:Em; try done. destruct (message p) as [[w a]|]; [|done].
      apply (actor_step_dom _ _ _ _ _ _ n H). cbn. destruct (decide (n = m)) as [->|]; [by rewrite lookup_insert|by rewrite lookup_insert_ne].
    + left. assert (Hs : actor_step k w e s = Some (s', o)) by (destruct e; try done; by destruct (waiter w n0 (rs_calls s))).
      by apply (actor_step_dom _ _ _ _ _ _ n Hs).
    + left. destruct (rs_calls s !! m) as [[p [v|]]|] eqn:Em; try done. destruct (message p) as [[w a]|]; [done|].
      destruct (respond l 0 ∅ p x) as [[[[sv p'] pe] f]|]; [|done]. injection H as <- <-. cbn.
      destruct (decide (n = m)) as [->|]; [by rewrite lookup_insert|by rewrite lookup_insert_ne].
    + destruct (rs_calls s !! m) as [[p v]|] eqn:Em; [|done]. destruct p; try discriminate. destruct v; [done|].
      injection H as <- <-. cbn. destruct (decide (n = m)) as [->|]; [|left; by rewrite lookup_delete_ne].
      right. right. exists r. by left.
    + destruct (rs_calls s !! m) as [[p [[w i]|]]|] eqn:Em; [| |done].
      * destruct (actor_step _ _ _ _) as [[s1 o1]|] eqn:Es; [|done]. injection H as <- <-.
        destruct (decide (n = m)) as [->|]; [right; left; by left|]. left.
        apply (actor_step_dom _ _ _ _ _ _ n Es). cbn. by rewrite lookup_delete_ne.
      * injection H as <- <-. cbn. destruct (decide (n = m)) as [->|]; [right; left; by left|left; by rewrite lookup_delete_ne].
  - intros c Hc. destruct (step_shape _ _ _ _ _ _ H) as (_ & Hcall & _). destruct (Hcall _ _ Hc) as [-> Ho].
    destruct e as [c'|m|w e|m x|m|m]; [injection H as <- <-; cbn; by rewrite lookup_insert|..]; exfalso; subst o.
    + cbn [rs_step] in H. destruct (rs_calls s !! m) as [[p [v|]]|]; try done. destruct (message p) as [[w a]|]; [|done].
      by apply actor_step_out in H as (? & ? & ? & _).
    + assert (Hs : actor_step k w e s = Some (s', [SvoCall (rs_next s) c]))
        by (destruct e; cbn [rs_step] in H; try done; by destruct (waiter w n (rs_calls s))).
      by apply actor_step_out in Hs as (? & ? & ? & _).
    + cbn [rs_step] in H. destruct (rs_calls s !! m) as [[p [v|]]|]; try done. destruct (message p) as [[w a]|]; [done|].
      by destruct (respond l 0 ∅ p x) as [[[[sv p'] pe] f]|].
    + cbn [rs_step] in H. destruct (rs_calls s !! m) as [[p v]|]; [|done]. destruct p; try discriminate. by destruct v.
    + cbn [rs_step] in H. destruct (rs_calls s !! m) as [[p [[w i]|]]|]; [|done|done].
      by destruct (actor_step _ _ _ _) as [[s1 o1]|].
Qed.
Lemma run_present k l es s tr n c : rs_run k l rs_init es = Some (s, tr) -> SvoCall n c ∈ tr ->
  is_Some (rs_calls s !! n) \/ SvoCancel n ∈ tr \/ exists r, SvoRet n r ∈ tr.
Proof.
  revert s tr. induction es as [|e es IH] using rev_ind; intros s tr H Hc; [injection H as <- <-; by apply elem_of_nil in Hc|].
  apply rs_run_snoc in H as (s1 & tr1 & o & H1 & H2 & ->). destruct (step_present _ _ _ _ _ _ n H2) as [Hkeep Hnew].
  apply elem_of_app in Hc as [Hc|Hc]; [|left; by apply (Hnew c)].
  destruct (IH _ _ H1 Hc) as [Hs|[Hs|[r Hs]]].
  - destruct (Hkeep Hs) as [?|[?|[r ?]]]; [by left|right; left; apply elem_of_app; by right|].
    right. right. exists r. apply elem_of_app; by right.
  - right. left. apply elem_of_app. by left.
  - right. right. exists r. apply elem_of_app. by left.
Qed.
Lemma actor_enabled k w e s : is_Some (ra_step k (actor w s) e) -> is_Some (actor_step k w e s).
Proof.
  intros [[a os] H]. unfold actor_step. rewrite H. destruct (settle_all _ _ _ _). by eexists.
Qed.
