(** Proofs about deployments: every history of a deployment is, as far as it can
    be observed, a history of Model/SystemShared.v. *)
From Coq Require Import ZifyBool ZifyN ZifyNat Lia Sorted.
From Verif Require Import Model.Base Model.MCaptcha Model.HashCache Model.Pow Model.System Model.Master Model.Json Model.Serde Model.Redis
  Model.RedisActor Model.RedisTokens Model.SystemProgram Model.SystemShared Model.RedisSystem Model.Deployment
  Spec.RedisActorSpec Spec.RedisSpec Spec.ProgramSpec Spec.SharedSpec Spec.RedisSystemSpec Spec.DeploymentSpec
  Proofs.RedisActorProofs Proofs.RedisProofs Proofs.ProgramProofs Proofs.SharedProofs Proofs.RedisSystemProofs.

Lemma dp_run_app k ls d es1 es2 :
  dp_run k ls d (es1 ++ es2) =
    match dp_run k ls d es1 with
    | Some (s1, o1) => match dp_run k ls s1 es2 with Some (s2, o2) => Some (s2, o1 ++ o2) | None => None end
    | None => None
    end.
Proof.
  revert d. induction es1 as [|e es1 IH]; intros d; cbn [app dp_run].
  - by destruct (dp_run k ls d es2) as [[? ?]|].
  - destruct (dp_step k ls d e) as [[s1 o1]|]; [|done]. rewrite IH. destruct (dp_run k ls s1 es1) as [[s2 o2]|]; [|done].
    destruct (dp_run k ls s2 es2) as [[s3 o3]|]; [|done]. by rewrite app_assoc.
Qed.
Lemma dp_run_snoc k ls d es e d2 tr : dp_run k ls d (es ++ [e]) = Some (d2, tr) ->
  exists d1 tr1 o, dp_run k ls d es = Some (d1, tr1) /\ dp_step k ls d1 e = Some (d2, o) /\ tr = tr1 ++ o.
Proof.
  rewrite dp_run_app. destruct (dp_run k ls d es) as [[s1 tr1]|]; [|done]. cbn [dp_run].
  destruct (dp_step k ls s1 e) as [[s2' o]|] eqn:E; [|done]. intros [= <- <-]. exists s1, tr1, o. by rewrite app_nil_r.
Qed.
Lemma d_obs_app tr1 tr2 : d_obs (tr1 ++ tr2) = d_obs tr1 ++ d_obs tr2.
Proof. apply bind_app. Qed.
Lemma x_obs_app tr1 tr2 : x_obs (tr1 ++ tr2) = x_obs tr1 ++ x_obs tr2.
Proof. apply bind_app. Qed.
Lemma x_obs_one o : x_obs ([o] ++ []) = x_ob o.
Proof. unfold x_obs. cbn [app mbind list_bind]. by rewrite app_nil_r. Qed.
Lemma d_obs_one i o : d_obs (DoSys i <$> [o]) = d_ob (DoSys i o).
Proof. unfold d_obs. rewrite fmap_cons. cbn [mbind list_bind fmap list_fmap]. by rewrite app_nil_r. Qed.

(** The stores of tokens that were given up, here and in the shared model. *)
Definition stored_late (l : list (nat * cache_result)) : list (list string) := (fun x => rc_cmd (token_cmd (TkAdd x.2))) <$> l.
Definition lates (S : shared) : list (list string) := stored_late (sh_late S).
Definition adds (l : list (list string)) : list (list string) := filter (fun cmd => head cmd = Some "SET"%string) l.

(** * Requests and their answers *)
(** What the caller is told when Redis replies. *)
Definition told_of (op : rcmd) (r : rreply) : told :=
  match rc_answer op r with Val x => TdAnswer x | Panic => TdDropped end.
(** The program can go on to [p'] without anything to be observed. *)
Definition silent (p p' : prog) : Prop :=
  exists x e f, (forall l now sv, respond l now sv p x = Some (sv, p', e, f)) /\ forall g now, x_ob (XoDid g now e f) = [].

Lemma silent_fail p a t p' e : message p = Some (AtCache, a) -> (forall x, t <> TdAnswer x) -> resume p t = Some (p', e) -> silent p p'.
Proof.
  intros Hm Ht Hr. destruct t as [x| |]; [by destruct (Ht x)|exists (XFail true NotSent)|exists (XFail false NotSent)];
    destruct p; try discriminate Hm; cbn in Hr; injection Hr as <- <-;
    eexists _, _; (split; [intros; reflexivity|done]).
Qed.
Lemma silent_visit p a t p' e : message p = Some (AtMaster, a) -> resume p t = Some (p', e) -> silent p p'.
Proof.
  intros Hm Hr. destruct p; try discriminate Hm; cbn in Hr. injection Hr as <- <-.
  exists (XVisit (as_answer pick_visit t)). eexists _, _. split; [intros; reflexivity|done].
Qed.
(** A request of the cache is for the module, or for a token. *)
Definition for_module (p : prog) (op : rcmd) : Prop :=
  (forall now sv, serve now sv (rc_cmd op) = None) /\
  forall r p' e, resume p (told_of op r) = Some (p', e) -> silent p p'.
Definition for_token (p : prog) (op : rcmd) : Prop :=
  (exists c, rc_cmd op = rc_cmd (token_cmd c)) /\
  (forall now sv, is_Some (serve now sv (rc_cmd op))) /\
  (forall now sv l, exists p' e f, respond l now sv p (XToken NotSent) = Some (sv, p', e, f) /\
     resume p (told_of op (RrErr "connection")) = Some (p', e) /\
     forall g, x_ob (XoDid g now e f) = [] /\ adds [rc_cmd op] = stored_late (given_up g e f)) /\
  forall now sv sv' r (b : bool) l, serve now sv (rc_cmd op) = Some (sv', r) ->
    exists p' e f, respond l now sv p (XToken (if b then Answered else AnswerLost)) = Some (sv', p', e, f) /\
      resume p (told_of op (if b then r else RrErr "connection")) = Some (p', e) /\
      forall g, x_ob (XoDid g now e f) = [BExec now (rc_cmd op)].
Lemma answer_unit_of op r : answer_unit (rc_answer op r) = as_answer pick_unit (told_of op r).
Proof. unfold told_of. by destruct (rc_answer op r) as [[]|]. Qed.
Lemma answer_pow_of op r : answer_pow (rc_answer op r) = as_answer pick_pow (told_of op r).
Proof. unfold told_of. by destruct (rc_answer op r) as [[]|]. Qed.
Lemma answer_bool_of op r : answer_bool (rc_answer op r) = as_answer pick_bool (told_of op r).
Proof. unfold told_of. by destruct (rc_answer op r) as [[]|]. Qed.
Lemma serve_add now sv m : is_Some (serve now sv (rc_cmd (token_cmd (TkAdd m)))).
Proof. cbn [token_cmd lift rc_cmd r_add_token ro_cmd serve]. by repeat (case_match; try by eexists). Qed.
Lemma serve_get now sv m : is_Some (serve now sv (rc_cmd (token_cmd (TkGet m)))).
Proof. cbn [token_cmd lift rc_cmd r_get_token ro_cmd serve]. by repeat (case_match; try by eexists). Qed.
Lemma request_kind p a : message p = Some (AtCache, a) ->
  exists op, a = AcCommand op true /\ (for_module p op \/ for_token p op).
Proof.
  intros Hm. destruct p; try discriminate Hm; injection Hm as <-; eexists; (split; [reflexivity|]).
  - left. split; [done|]. intros r p' e Hr. cbn [resume] in Hr. injection Hr as <- <-.
    exists (XReply r). eexists _, _. split; [intros; cbn [respond cache_action]; by rewrite answer_unit_of|done].
  - left. split; [done|]. intros r p' e Hr. cbn [resume] in Hr. injection Hr as <- <-.
    exists (XReply r). eexists _, _. split; [intros; cbn [respond cache_action]; by rewrite answer_pow_of|done].
  - right. change (lift RoUnit (r_add_token m)) with (token_cmd (TkAdd m)). split; [by exists (TkAdd m)|].
    split; [intros; apply serve_add|]. split.
    + intros now sv l. cbn [respond resume]. unfold token_step; cbn [te_fate te_now te_call]. rewrite answer_unit_of.
      eexists _, _, _. split; [reflexivity|]. split; [reflexivity|]. done.
    + intros now sv sv' r b l Hs. cbn [resume respond].
      destruct b; unfold token_step; cbn [te_fate te_now te_call]; rewrite Hs, answer_unit_of; eexists _, _, _; (split; [reflexivity|done]).
  - right. change (lift RoBool (r_get_token m)) with (token_cmd (TkGet m)). split; [by exists (TkGet m)|].
    split; [intros; apply serve_get|]. split.
    + intros now sv l. cbn [respond resume]. unfold token_step; cbn [te_fate te_now te_call]. rewrite answer_bool_of.
      eexists _, _, _. split; [reflexivity|]. split; [reflexivity|]. done.
    + intros now sv sv' r b l Hs. cbn [resume respond].
      destruct b; unfold token_step; cbn [te_fate te_now te_call]; rewrite Hs, answer_bool_of; eexists _, _, _; (split; [reflexivity|done]).
Qed.

(** * A cache used by its System only *)
Lemma settle_keep w cur os : forall c c' out, settle_all w cur os c = (c', out) ->
  forall n p v, c !! n = Some (p, v) ->
    (forall m, v = Some (w, m) -> forall o t, o ∈ os -> settled_by cur o <> Some (m, t)) -> c' !! n = Some (p, v).
Proof.
  induction os as [|o os IH]; intros c c' out H n p v Hc Hno; cbn [settle_all] in H; [by injection H as <- <-|].
  destruct (match settled_by cur o with Some (m, t) => settle w m t c | None => (c, []) end) as [c1 o1] eqn:E1.
  destruct (settle_all w cur os c1) as [c2 o2] eqn:E2. injection H as <- <-.
  apply (IH _ _ _ E2); [|intros m Hv o' t Ho'; apply (Hno m Hv); by right].
  destruct (settled_by cur o) as [[m t]|] eqn:Es; [|by injection E1 as <- <-]. unfold settle in E1.
  destruct (waiter w m c) as [n'|] eqn:Ew; [|by injection E1 as <- <-].
  destruct (waiter_some _ _ _ _ Ew) as [p' Hp']. rewrite Hp' in E1.
  destruct (resume p' t) as [[p2 e]|]; injection E1 as <- <-; [|done].
  rewrite lookup_insert_ne; [done|]. intros ->. rewrite Hc in Hp'. injection Hp' as -> ->.
  by apply (Hno m eq_refl o t (ltac:(by left))).
Qed.
Lemma settle_none w cur os c : (forall o, o ∈ os -> settled_by cur o = None) -> settle_all w cur os c = (c, []).
Proof.
  induction os as [|o os IH]; intros H; [done|]. cbn [settle_all]. rewrite (H o) by (by left).
  rewrite IH by (intros o' Ho'; apply H; by right). done.
Qed.

Definition asked (s : rsys) (m : nat) (a : action) : Prop :=
  exists n p, rs_calls s !! n = Some (p, Some (AtCache, m)) /\ message p = Some (AtCache, a).
Record cinv (s : rsys) : Prop := {
  ci_users : ra_users (rs_cache s) = ∅;
  ci_box : forall q, q ∈ ra_box (rs_cache s) -> rq_send q = true /\ asked s (rq_id q) (rq_action q);
  ci_cur : forall m op st w, ra_cur (rs_cache s) = Some (m, op, st, w) ->
    (exists p, message p = Some (AtCache, AcCommand op st)) /\ (w = true -> asked s m (AcCommand op st)) }.
Lemma cinv_same s s' : cinv s -> rs_cache s' = rs_cache s ->
  (forall n p m, rs_calls s !! n = Some (p, Some (AtCache, m)) -> rs_calls s' !! n = Some (p, Some (AtCache, m))) -> cinv s'.
Proof.
  intros H He Hk.
  assert (Ha : forall m a, asked s m a -> asked s' m a).
  { intros m a (n & p & Hc & Hm). exists n, p. split; [by apply Hk|done]. }
  split; rewrite He.
  - apply H.
  - intros q Hq. destruct (ci_box _ H q Hq) as [H1 H2]. split; [done|by apply Ha].
  - intros m op st w Hc. destruct (ci_cur _ H m op st w Hc) as [H1 H2]. split; [done|]. intros Hw. by apply Ha, H2.
Qed.
(** What the cache is doing is settled by a reply only. *)
Lemma cinv_step k l tr s e s' o : rinv k l tr s -> cinv s -> rs_step k l s e = Some (s', o) ->
  (own e = true \/ exists r, e = SvActor AtCache (ReReply r)) ->
  cinv s' /\ (own e = true -> forall op, in_flight s = Some op -> in_flight s' = Some op).
Proof.
  intros [Hb Hw] Hc H Hown. pose proof (ra_inv _ _ _ _ (ri_actor _ _ _ _ Hb AtCache)) as Hi. cbn [actor] in Hi.
  assert (Hsame : rs_cache s' = rs_cache s ->
    (forall n p m, rs_calls s !! n = Some (p, Some (AtCache, m)) -> rs_calls s' !! n = Some (p, Some (AtCache, m))) ->
    cinv s' /\ (own e = true -> forall op, in_flight s = Some op -> in_flight s' = Some op)).
  { intros H1 H2. split; [by apply (cinv_same s)|]. intros _ op. unfold in_flight. by rewrite H1. }
  assert (Hmaster : forall e s1, rs_cache s1 = rs_cache s ->
     (forall n p m, rs_calls s !! n = Some (p, Some (AtCache, m)) -> rs_calls s1 !! n = Some (p, Some (AtCache, m))) ->
     forall o', actor_step k AtMaster e s1 = Some (s', o') -> rs_cache s' = rs_cache s /\
     (forall n p m, rs_calls s !! n = Some (p, Some (AtCache, m)) -> rs_calls s' !! n = Some (p, Some (AtCache, m)))).
  { intros e' s1 H1 H2 o' Hs. unfold actor_step in Hs. destruct (ra_step k (actor AtMaster s1) e') as [[a os]|]; [|done].
    destruct (settle_all _ _ os (rs_calls s1)) as [c out] eqn:Es. injection Hs as <- <-. cbn. split; [done|].
    intros n p m Hn. by apply (settle_keep _ _ _ _ _ _ Es n p _ (H2 _ _ _ Hn)). }
  destruct e as [c|n|w e|n x|n|n]; cbn [rs_step] in H.
  - injection H as <- <-. apply Hsame; [done|]. intros n p m Hn. cbn. rewrite lookup_insert_ne; [done|].
    destruct (ri_call _ _ _ _ Hb _ _ _ Hn). lia.
  - destruct (rs_calls s !! n) as [[p [v|]]|] eqn:En; try done. destruct (message p) as [[w a]|] eqn:Em; [|done].
    assert (Hkeep : forall v n' p' m, rs_calls s !! n' = Some (p', Some (AtCache, m)) ->
      <[n := (p, v)]> (rs_calls s) !! n' = Some (p', Some (AtCache, m))).
    { intros v n' p' m Hn. rewrite lookup_insert_ne; [done|]. intros ->. congruence. }
    destruct w; cbn [actor] in H.
    + apply Hmaster in H as [H1 H2]; [by apply Hsame|done|apply Hkeep].
    + unfold actor_step in H. cbn [actor set_calls rs_cache ra_step] in H.
      destruct (alive_died _ _ _ _ (ri_actor _ _ _ _ Hb AtCache)) as [[Ha _]|(Ha & _ & Hcur & Hbox)]; cbn [actor] in *; rewrite Ha in H.
      * cbn in H. injection H as <- <-. split; [|done]. split; cbn.
        -- apply Hc.
        -- intros q Hq. apply elem_of_app in Hq as [Hq|Hq].
           ++ destruct (ci_box _ Hc q Hq) as (H1 & n' & p' & H2 & H3). split; [done|]. exists n', p'. split; [by apply Hkeep|done].
           ++ apply elem_of_list_singleton in Hq as ->. split; [done|]. exists n, p. cbn. by rewrite lookup_insert.
        -- intros m op st wa Hcu. destruct (ci_cur _ Hc m op st wa Hcu) as [H1 H2]. split; [done|]. intros Hwa.
           destruct (H2 Hwa) as (n' & p' & H3 & H4). exists n', p'. split; [by apply Hkeep|done].
      * destruct (settle_all _ _ _ _) as [c out]. injection H as <- <-. cbn. split; [|unfold in_flight; cbn; by rewrite Hcur].
        split; cbn; [apply Hc|rewrite Hbox; by intros q Hq%elem_of_nil|]. by rewrite Hcur.
  - destruct w.
    + assert (Hs : actor_step k AtMaster e s = Some (s', o)) by (destruct e; try done; by destruct (waiter _ n (rs_calls s))).
      apply Hmaster in Hs as [H1 H2]; [by apply Hsame|done|done].
    + destruct e as [a b|m| |r|u op|u r|u]; try (destruct Hown as [Hf|[r' Hf]]; discriminate Hf).
      * unfold actor_step in H. cbn [actor ra_step] in H. destruct (ra_alive (rs_cache s)); [|done].
        destruct (ra_cur (rs_cache s)) eqn:Ecur; [done|]. destruct (ra_box (rs_cache s)) as [|q rest] eqn:Ebox; [done|].
        destruct (ci_box _ Hc q ltac:(rewrite Ebox; by left)) as (Hq1 & Hq2). pose proof Hq2 as (n & p & Hn & Hm).
        destruct (request_kind _ _ Hm) as (op & Hop & _). rewrite Hop in *.
        assert (Hbw : borrowed (rs_cache s) = false).
        { unfold borrowed. rewrite Ecur. apply bool_decide_eq_false. rewrite (ci_users _ Hc). by intros Hf. }
        rewrite Hbw in H.
        rewrite settle_none in H by (intros o' Ho'; apply elem_of_list_singleton in Ho'; by subst o').
        injection H as <- <-. split; [|unfold in_flight; by rewrite Ecur]. split; cbn.
        -- apply Hc.
        -- intros q' Hq'. destruct (ci_box _ Hc q' ltac:(rewrite Ebox; by right)) as (H1 & H2). split; [done|]. exact H2.
        -- intros m op' st w [= <- <- <- <-]. split; [by exists p|]. intros _. exact Hq2.
      * split; [|done]. unfold actor_step in H. cbn [actor ra_step] in H.
        destruct (ra_cur (rs_cache s)) as [[[[m op] st] w]|] eqn:Ecur; [|done].
        assert (Hdie : forall a os, die (rs_cache s) = (a, os) ->
          (let '(c, out) := settle_all AtCache (working_on (rs_cache s)) os (rs_calls s) in
           Some (set_calls c (set_actor AtCache a s), SvoActor AtCache (ReReply r) os :: out)) = Some (s', o) -> cinv s').
        { intros a os Hd Hs. destruct (settle_all _ _ _ _) as [c out]. injection Hs as <- <-. injection Hd as <- <-.
          split; cbn; [apply Hc|by intros q Hq%elem_of_nil|done]. }
        destruct (rc_answer op r) as [x|]; [|by eapply Hdie].
        destruct w; [|destruct st; [by eapply Hdie|]].
        -- destruct (settle_all _ _ _ _) as [c out] eqn:Es. injection H as <- <-. split; cbn; [apply Hc| |done].
           intros q Hq. destruct (ci_box _ Hc q Hq) as (H1 & n & p & H2 & H3). split; [done|]. exists n, p. split; [|done].
           apply (settle_keep _ _ _ _ _ _ Es _ _ _ H2). intros m' [= <-] o' t Ho'. apply elem_of_list_singleton in Ho' as ->. cbn.
           intros [= -> _]. destruct Hi as (Hs & _). unfold all_ids in Hs. rewrite Ecur in Hs. cbn in Hs.
           apply StronglySorted_inv in Hs as [_ Hs]. rewrite Forall_forall in Hs.
           specialize (Hs (rq_id q)). assert (rq_id q < rq_id q)%nat; [|lia]. apply Hs.
           apply elem_of_list_fmap. by exists q.
        -- cbn in H. injection H as <- <-. split; cbn; [apply Hc| |done]. intros q Hq. by apply (ci_box _ Hc q Hq).
  - destruct (rs_calls s !! n) as [[p [v|]]|] eqn:En; try done. destruct (message p) as [[w a]|] eqn:Em; [done|].
    destruct (respond l 0 ∅ p x) as [[[[sv p'] pe] f]|] eqn:Er; [|done]. injection H as <- <-. apply Hsame; [done|].
    intros n' q m Hn. cbn. rewrite lookup_insert_ne; [done|]. congruence.
  - destruct (rs_calls s !! n) as [[p v]|] eqn:En; [|done]. destruct p; try discriminate. destruct v; [done|].
    injection H as <- <-. apply Hsame; [done|]. intros n' q m Hn. cbn. rewrite lookup_delete_ne; [done|]. congruence.
  - destruct (rs_calls s !! n) as [[p [[w m]|]]|] eqn:En; [| |done].
    + destruct (actor_step _ _ _ _) as [[s1 o1]|] eqn:Es; [|done]. injection H as <- <-.
      destruct w.
      * apply Hmaster in Es as [H1 H2]; [by apply Hsame|done|]. intros n' q m' Hn. cbn. rewrite lookup_delete_ne; [done|]. congruence.
      * unfold actor_step in Es. cbn [actor set_calls rs_cache ra_step] in Es.
        assert (Hleft : forall b : bool, forall o, o ∈ (if b then [ObLeft m] else []) -> settled_by (working_on (rs_cache s)) o = None).
        { intros [] o' Ho'; [by apply elem_of_list_singleton in Ho' as ->|by apply elem_of_nil in Ho']. }
        assert (Hask : forall m' a, m' <> m -> asked s m' a -> asked (set_calls (delete n (rs_calls s)) s) m' a).
        { intros m' a Hne (n' & p' & H1 & H2). exists n', p'. split; [|done]. cbn. rewrite lookup_delete_ne; [done|]. congruence. }
        assert (Hbox : forall q, q ∈ List.filter (drop_gone m) (ra_box (rs_cache s)) -> rq_send q = true /\
          asked (set_calls (delete n (rs_calls s)) s) (rq_id q) (rq_action q)).
        { intros q Hq. apply elem_of_list_In, filter_In in Hq as [Hq Hd]. apply elem_of_list_In in Hq.
          destruct (ci_box _ Hc q Hq) as [H1 H2]. split; [done|]. apply Hask; [|done].
          unfold drop_gone in Hd. rewrite H1 in Hd. cbn in Hd. by destruct (Nat.eqb_spec (rq_id q) m). }
        destruct (ra_cur (rs_cache s)) as [[[[x op] st] [|]]|] eqn:Ec; [destruct (Nat.eqb_spec x m) as [->|Hne]|..];
          (rewrite settle_none in Es by first [apply Hleft|intros o' Ho'; apply elem_of_app in Ho' as [Ho'|Ho'];
            [by apply (Hleft _ _ Ho')|by apply elem_of_list_singleton in Ho' as ->]]); injection Es as <- <-;
          (split; [split; cbn; [apply Hc|exact Hbox|]|unfold in_flight; cbn; by rewrite Ec]).
        -- intros m' op' st' w' [= <- <- <- <-]. destruct (ci_cur _ Hc _ _ _ _ Ec) as [H1 _]. done.
        -- rewrite Ec. intros m' op' st' w' [= <- <- <- <-]. destruct (ci_cur _ Hc _ _ _ _ Ec) as [H1 H2]. split; [done|].
           intros _. by apply (Hask x), H2.
        -- rewrite Ec. intros m' op' st' w' [= <- <- <- <-]. destruct (ci_cur _ Hc _ _ _ _ Ec) as [H1 H2]. done.
        -- by rewrite Ec.
    + injection H as <- <-. apply Hsame; [done|]. intros n' q m Hn. cbn. rewrite lookup_delete_ne; [done|]. congruence.
Qed.

(** * The simulation *)
(** Calls of the shared model go on, with nothing to be observed; only those in [G]. *)
Definition quiet (ls : nat -> pow_lib) (S S' : shared) (G : nat -> Prop) : Prop :=
  exists es tr, sh_run ls S es = Some (S', tr) /\ x_obs tr = [] /\ (forall g i c, XoCall g i c ∉ tr) /\
    sh_now S' = sh_now S /\ sh_server S' = sh_server S /\ sh_next S' = sh_next S /\ lates S ⊆+ lates S' /\
    forall g, ~ G g -> sh_calls S' !! g = sh_calls S !! g.
Lemma quiet_refl ls S G : quiet ls S S G.
Proof. exists [], []. split; [done|]. split; [done|]. split; [by intros g i c Hx%elem_of_nil|done]. Qed.
Lemma quiet_trans ls S1 S2 S3 G : quiet ls S1 S2 G -> quiet ls S2 S3 G -> quiet ls S1 S3 G.
Proof.
  intros (es & tr & H1 & H2 & H3 & H4 & H5 & H6 & H8 & H7) (es' & tr' & J1 & J2 & J3 & J4 & J5 & J6 & J8 & J7).
  exists (es ++ es'), (tr ++ tr'). rewrite sh_run_app, H1, J1. split; [done|]. rewrite x_obs_app, H2, J2. split; [done|].
  split; [intros g i c [Hx|Hx]%elem_of_app; [by apply H3 in Hx|by apply J3 in Hx]|]. do 3 (split; [congruence|]).
  split; [by transitivity (lates S2)|]. intros g Hg. rewrite J7, H7; done.
Qed.
Lemma quiet_weaken ls S S' (G G' : nat -> Prop) : quiet ls S S' G -> (forall g, G g -> G' g) -> quiet ls S S' G'.
Proof.
  intros (es & tr & H1 & H2 & H3 & H4 & H5 & H6 & H8 & H7) HG. exists es, tr. repeat (split; [done|]).
  intros g Hg. apply H7. intros Hx. by apply Hg, HG.
Qed.
Lemma quiet_step ls S g i p p' : sh_calls S !! g = Some (i, p) -> silent p p' ->
  exists S', quiet ls S S' (fun g' => g' = g) /\ sh_calls S' = <[g := (i, p')]> (sh_calls S).
Proof.
  intros Hg (x & e & f & Hr & Ho).
  exists (Shared (sh_now S) (sh_server S) (<[g := (i, p')]> (sh_calls S)) (sh_next S) (sh_late S ++ given_up g e f)). split; [|done].
  exists [XeStep g x], [XoDid g (sh_now S) e f]. cbn [sh_run sh_step]. rewrite Hg, Hr.
  split; [done|]. split; [unfold x_obs; cbn [mbind list_bind]; by rewrite Ho|]. split; [intros g' i' c Hx; by apply elem_of_list_singleton in Hx|].
  do 3 (split; [done|]). split; [unfold lates, stored_late; cbn; rewrite fmap_app; by apply submseteq_inserts_r|].
  intros g' Hne. cbn. by rewrite lookup_insert_ne.
Qed.

Notation namings := (gmap nat (nat * nat)).
Definition injective_names (names : namings) : Prop := forall g g' a, names !! g = Some a -> names !! g' = Some a -> g = g'.
Lemma settle_sim ls i (names : namings) w cur os : injective_names names -> forall c c' out S (A : nat -> prog -> waits -> prog),
  settle_all w cur os c = (c', out) ->
  (forall n p v, c !! n = Some (p, v) -> exists g, names !! g = Some (i, n) /\ sh_calls S !! g = Some (i, A n p v)) ->
  (forall o m t n p p' e, o ∈ os -> settled_by cur o = Some (m, t) -> c !! n = Some (p, Some (w, m)) -> resume p t = Some (p', e) ->
     A n p (Some (w, m)) = p' \/ (A n p (Some (w, m)) = p /\ silent p p')) ->
  exists S', quiet ls S S' (fun g => exists n p m, names !! g = Some (i, n) /\ c !! n = Some (p, Some (w, m))) /\
    forall n p v, c' !! n = Some (p, v) -> exists g, names !! g = Some (i, n) /\
      ((c !! n = Some (p, v) /\ sh_calls S' !! g = Some (i, A n p v)) \/
       (v = None /\ sh_calls S' !! g = Some (i, p) /\ exists q m, c !! n = Some (q, Some (w, m)))).
Proof.
  intros Hinj. induction os as [|o os IH]; intros c c' out S A H HA Hs; cbn [settle_all] in H.
  { injection H as <- <-. exists S. split; [apply quiet_refl|]. intros n p v Hc. destruct (HA _ _ _ Hc) as (g & H1 & H2).
    exists g. split; [done|]. by left. }
  destruct (match settled_by cur o with Some (m, t) => settle w m t c | None => (c, []) end) as [c1 o1] eqn:E1.
  destruct (settle_all w cur os c1) as [c2 o2] eqn:E2. injection H as <- <-.
  assert (Hone : c1 = c \/ exists n p m t p' e, settled_by cur o = Some (m, t) /\ c !! n = Some (p, Some (w, m)) /\
    resume p t = Some (p', e) /\ c1 = <[n := (p', None)]> c).
  { destruct (settled_by cur o) as [[m t]|]; [|injection E1 as <- <-; by left]. unfold settle in E1.
    destruct (waiter w m c) as [n|] eqn:Ew; [|injection E1 as <- <-; by left].
    destruct (waiter_some _ _ _ _ Ew) as [p Hp]. rewrite Hp in E1.
    destruct (resume p t) as [[p' e]|] eqn:Er; injection E1 as <- <-; [|by left]. right. by exists n, p, m, t, p', e. }
  destruct Hone as [->|(n & p & m & t & p' & e & H1 & H2 & H3 & ->)].
  { apply (IH c c2 o2 S A E2 HA). intros o' m t n p p' e Ho'. apply Hs. by right. }
  destruct (HA _ _ _ H2) as (g & Hg1 & Hg2).
  set (A1 := fun x q v => if decide (x = n) then q else A x q v).
  assert (Hmid : exists S1, quiet ls S S1 (fun g' => g' = g) /\ sh_calls S1 !! g = Some (i, p')).
  { destruct (Hs o m t n p p' e ltac:(by left) H1 H2 H3) as [E|[E Hsil]]; rewrite E in Hg2.
    - exists S. split; [apply quiet_refl|done].
    - destruct (quiet_step ls S g i p p' Hg2 Hsil) as (S1 & Hq1 & Hc1). exists S1. split; [done|]. by rewrite Hc1, lookup_insert. }
  destruct Hmid as (S1 & Hq1 & Hg3).
  assert (HS1 : forall g', g' <> g -> sh_calls S1 !! g' = sh_calls S !! g') by (by destruct Hq1 as (? & ? & ? & ? & ? & ? & ? & ? & ? & Hf)).
  destruct (IH (<[n := (p', None)]> c) c2 o2 S1 A1 E2) as (S' & Hq & Hfin).
  - intros x q v Hx. unfold A1. apply lookup_insert_Some in Hx as [[<- [= <- <-]]|[Hne Hx]].
    + exists g. rewrite decide_True by done. done.
    + destruct (HA _ _ _ Hx) as (g' & J1 & J2). exists g'. split; [done|]. rewrite decide_False by done. rewrite HS1; [done|].
      intros ->. congruence.
  - intros o' m' t' x q q' e' Ho' Hset Hx Hres. apply lookup_insert_Some in Hx as [[_ [=]]|[Hne Hx]]. unfold A1.
    rewrite !decide_False by done. apply (Hs o' m' t' x q q' e'); try done. by right.
  - exists S'. split.
    + apply (quiet_trans _ _ S1).
      * apply (quiet_weaken _ _ _ _ _ Hq1). intros g' ->. by exists n, p, m.
      * apply (quiet_weaken _ _ _ _ _ Hq). intros g' (x & q & z & J1 & J2). apply lookup_insert_Some in J2 as [[_ [=]]|[_ J2]].
        by exists x, q, z.
    + intros x q v Hx. destruct (Hfin x q v Hx) as (g' & J1 & J2). exists g'. split; [done|].
      unfold A1 in J2. destruct (decide (x = n)) as [->|Hne].
      * rewrite lookup_insert in J2. right. destruct J2 as [[J2 J3]|(J2 & J3 & q' & m' & J4)]; [|done].
        injection J2 as <- <-. split; [done|]. split; [done|]. by exists p, m.
      * rewrite lookup_insert_ne in J2 by done. destruct J2 as [[J2 J3]|(J2 & J3 & q' & m' & J4)]; [by left|].
        right. split; [done|]. split; [done|]. by exists q', m'.
Qed.
Lemma settle_told_quiet w cur os i : forall c c' out, settle_all w cur os c = (c', out) -> d_obs (DoSys i <$> out) = [].
Proof.
  induction os as [|o os IH]; intros c c' out H; cbn [settle_all] in H; [by injection H as <- <-|].
  destruct (match settled_by cur o with Some (m, t) => settle w m t c | None => (c, []) end) as [c1 o1] eqn:E1.
  destruct (settle_all w cur os c1) as [c2 o2] eqn:E2. injection H as <- <-. rewrite fmap_app, d_obs_app, (IH _ _ _ E2), app_nil_r.
  destruct (settled_by cur o) as [[m t]|]; [|by injection E1 as <- <-]. unfold settle in E1.
  destruct (waiter w m c) as [n|]; [|by injection E1 as <- <-]. destruct (c !! n) as [[p v]|]; [|by injection E1 as <- <-].
  destruct (resume p t) as [[p' e]|] eqn:Er; injection E1 as <- <-; [|done].
  destruct p; try discriminate Er; cbn in Er; by injection Er as <- <-.
Qed.

(** [b]: whether the reply on its way will arrive. The shared model has already
    given it to the caller. *)
Definition ahead (b : bool) (dn : option rreply) (cur : option (nat * rcmd * bool * bool)) (p : prog) (v : waits) : prog :=
  match dn, cur, v with
  | Some r, Some (m, op, _, _), Some (AtCache, m') =>
      if decide (m' = m) then
        match resume p (told_of op (if b then r else RrErr "connection")) with Some (p', _) => p' | None => p end
      else p
  | _, _, _ => p
  end.
Lemma ahead_none b cur p v : ahead b None cur p v = p.
Proof. done. Qed.
Lemma ahead_idle b dn p v : ahead b dn None p v = p.
Proof. by destruct dn. Qed.
Lemma ahead_free b dn cur p : ahead b dn cur p None = p.
Proof. by destruct dn, cur as [[[[]]]|]. Qed.
Lemma ahead_master b dn cur p m : ahead b dn cur p (Some (AtMaster, m)) = p.
Proof. by destruct dn, cur as [[[[]]]|]. Qed.
Lemma ahead_other b dn m op st w p m' : m' <> m -> ahead b dn (Some (m, op, st, w)) p (Some (AtCache, m')) = p.
Proof. intros H. destruct dn; [|done]. cbn. by rewrite decide_False. Qed.
Lemma ahead_wants b dn m op st w w' p v : ahead b dn (Some (m, op, st, w)) p v = ahead b dn (Some (m, op, st, w')) p v.
Proof. done. Qed.

Record simi (b : bool) (i : nat) (dn : option rreply) (s : rsys) (calls : gmap nat (nat * prog)) (names : namings) : Prop := {
  si_calls : forall n p v, rs_calls s !! n = Some (p, v) -> exists g, names !! g = Some (i, n) /\
    calls !! g = Some (i, ahead b dn (ra_cur (rs_cache s)) p v);
  (* a command without a caller is executed in a call of the shared model that hangs *)
  si_orphan : forall m op st, ra_cur (rs_cache s) = Some (m, op, st, false) -> dn = None -> exists g n p,
    names !! g = Some (i, n) /\ rs_calls s !! n = None /\ calls !! g = Some (i, p) /\ message p = Some (AtCache, AcCommand op st);
  si_lt : forall g n, names !! g = Some (i, n) -> (n < rs_next s)%nat }.
Definition named (names : namings) (x : obs nat) (y : obs (nat * nat)) : Prop :=
  match x, y with
  | BCall g c, BCall a c' => names !! g = Some a /\ c = c'
  | BDraw g s, BDraw a s' => names !! g = Some a /\ s = s'
  | BExec t cmd, BExec t' cmd' => t = t' /\ cmd = cmd'
  | BRet g r, BRet a r' => names !! g = Some a /\ r = r'
  | _, _ => False
  end.
Definition names_ok (S : shared) (names : namings) : Prop :=
  injective_names names /\ forall g, (g < sh_next S)%nat <-> is_Some (names !! g).
(** The shared model follows a step of System [i] that puts [o] into the trace. *)
Definition moves (ls : nat -> pow_lib) (b : bool) (i : nat) (dn : option rreply) (s' : rsys) (S : shared) (names : namings) (now' : N) (sv' : server)
  (o : list dout) : Prop :=
  exists es S' tr names', sh_run ls S es = Some (S', tr) /\ names ⊆ names' /\ names_ok S' names' /\
    sh_now S' = now' /\ sh_server S' = sv' /\ lates S ⊆+ lates S' /\
    (forall g j n, names' !! g = Some (j, n) -> j <> i -> names !! g = Some (j, n) /\ sh_calls S' !! g = sh_calls S !! g) /\
    simi b i dn s' (sh_calls S') names' /\ Forall2 (named names') (x_obs tr) (d_obs o) /\
    forall g j c, XoCall g j c ∈ tr -> exists n, names' !! g = Some (j, n).
Lemma moves_quiet ls b i dn s' S S' names o (G : nat -> Prop) : names_ok S names -> quiet ls S S' G ->
  (forall g, G g -> exists n, names !! g = Some (i, n)) -> simi b i dn s' (sh_calls S') names -> d_obs o = [] ->
  moves ls b i dn s' S names (sh_now S) (sh_server S) o.
Proof.
  intros [Hn1 Hn2] (es & tr & H1 & H2 & H3 & H4 & H5 & H6 & H8 & H7) HG Hs Ho. exists es, S', tr, names.
  split; [done|]. split; [done|]. split; [split; [done|by rewrite H6]|]. split; [done|]. split; [done|]. split; [done|].
  split; [|split; [done|split; [by rewrite H2, Ho|]]].
  - intros g j n Hg Hne. split; [done|]. apply H7. intros Hx. destruct (HG g Hx) as [n' Hn']. congruence.
  - intros g j c Hx. by apply H3 in Hx.
Qed.

Lemma cur_lt a m op st w : inv a -> ra_cur a = Some (m, op, st, w) -> (m < ra_next a)%nat.
Proof.
  intros (_ & H & _) Hc. rewrite Forall_forall in H. apply H. unfold all_ids. rewrite Hc. by left.
Qed.
(** Steps of the actors. *)
Lemma settled_sim ls b i dn s s1 s' S names w cur os c out : names_ok S names -> simi b i dn s (sh_calls S) names ->
  settle_all w cur os (rs_calls s1) = (c, out) ->
  (forall n p v, rs_calls s1 !! n = Some (p, v) -> (exists v', rs_calls s !! n = Some (p, v') /\
     ahead b dn (ra_cur (rs_cache s)) p v' = ahead b dn (ra_cur (rs_cache s)) p v)) ->
  (forall o m t n p p' e, o ∈ os -> settled_by cur o = Some (m, t) -> rs_calls s1 !! n = Some (p, Some (w, m)) -> resume p t = Some (p', e) ->
     ahead b dn (ra_cur (rs_cache s)) p (Some (w, m)) = p /\ silent p p') ->
  rs_calls s' = c -> rs_next s' = rs_next s -> ra_cur (rs_cache s') = ra_cur (rs_cache s) ->
  moves ls b i dn s' S names (sh_now S) (sh_server S) (DoSys i <$> SvoActor w (ReUserGone 0) os :: out).
Proof.
  intros Hok Hsim Hset Hsame Hsil Hc' Hn' Hcur'.
  destruct (settle_sim ls i names w cur os (proj1 Hok) _ _ _ S (fun _ p v => ahead b dn (ra_cur (rs_cache s)) p v) Hset) as (S' & Hq & Hfin).
  { intros n p v Hc. destruct (Hsame _ _ _ Hc) as (v' & Hv & He). destruct (si_calls _ _ _ _ _ _ Hsim _ _ _ Hv) as (g & H1 & H2).
    exists g. split; [done|]. by rewrite <- He. }
  { intros o m t n p p' e H1 H2 H3 H4. right. by apply (Hsil o m t n p p' e). }
  apply (moves_quiet _ _ _ _ _ _ _ _ _ _ Hok Hq).
  - intros g (n & p & m & H1 & _). by exists n.
  - split; rewrite ?Hc', ?Hcur', ?Hn'.
    + intros n p v Hc. destruct (Hfin n p v Hc) as (g & H1 & [[_ H2]|(-> & H2 & _)]); exists g; (split; [done|]); [done|].
      by rewrite ahead_free.
    + intros m op st Hcu Hdn. destruct (si_orphan _ _ _ _ _ _ Hsim m op st Hcu Hdn) as (g & n & p & H1 & H2 & H3 & H4).
      exists g, n, p. split; [done|]. split; [|split; [|done]].
      * destruct (c !! n) as [[q v]|] eqn:E; [|done]. exfalso.
        assert (exists q v, rs_calls s1 !! n = Some (q, v)) as (q' & v' & E').
        { destruct (Hfin n q v E) as (_ & _ & [[J _]|(_ & _ & q' & m' & J)]); by eexists _, _. }
        destruct (Hsame _ _ _ E') as (v'' & Hv & _). congruence.
      * destruct Hq as (es & tr & _ & _ & _ & _ & _ & _ & _ & H7). rewrite H7; [done|]. intros (n' & p' & m' & J1 & J2).
        destruct (Hsame _ _ _ J2) as (v'' & Hv & _). congruence.
    + apply Hsim.
  - rewrite fmap_cons. unfold d_obs. cbn [mbind list_bind d_ob app]. by apply (settle_told_quiet _ _ _ _ _ _ _ Hset).
Qed.
Lemma moves_trace ls b i dn s' S names now sv o o' : d_obs o' = d_obs o ->
  moves ls b i dn s' S names now sv o -> moves ls b i dn s' S names now sv o'.
Proof. intros He. unfold moves. by rewrite He. Qed.
(** Steps without any settlement. *)
Lemma still_sim ls b i dn s s' S names o : names_ok S names -> simi b i dn s (sh_calls S) names ->
  (forall n p v, rs_calls s' !! n = Some (p, v) -> rs_calls s !! n = Some (p, v) /\
     ahead b dn (ra_cur (rs_cache s)) p v = ahead b dn (ra_cur (rs_cache s')) p v) ->
  rs_next s' = rs_next s ->
  (forall m op st, ra_cur (rs_cache s') = Some (m, op, st, false) -> dn = None ->
     ra_cur (rs_cache s) = Some (m, op, st, false) \/
     exists n p v, rs_calls s !! n = Some (p, v) /\ rs_calls s' !! n = None /\ message p = Some (AtCache, AcCommand op st)) ->
  d_obs o = [] -> moves ls b i dn s' S names (sh_now S) (sh_server S) o.
Proof.
  intros Hok Hsim Hc Hn Ho Hobs. apply (moves_quiet _ _ _ _ _ _ S _ _ (fun _ => False) Hok (quiet_refl _ _ _)); [done| |done].
  split.
  - intros n p v Hx. destruct (Hc _ _ _ Hx) as [H1 <-]. by apply Hsim.
  - intros m op st Hcu Hdn. destruct (Ho m op st Hcu Hdn) as [Hcu'|(n & p & v & H1 & H2 & H3)].
    + destruct (si_orphan _ _ _ _ _ _ Hsim m op st Hcu' Hdn) as (g & n & p & H1 & H2 & H3 & H4). exists g, n, p.
      split; [done|]. split; [|done]. destruct (rs_calls s' !! n) as [[q v]|] eqn:E; [|done]. destruct (Hc _ _ _ E). congruence.
    + destruct (si_calls _ _ _ _ _ _ Hsim _ _ _ H1) as (g & J1 & J2). rewrite Hdn in J2. exists g, n, p. done.
  - rewrite Hn. apply Hsim.
Qed.
Lemma insert_sub (names : namings) g a : names !! g = None -> names ⊆ <[g := a]> names.
Proof. intros H. by apply insert_subseteq. Qed.

Lemma sys_sim k ls i b dn tr0 s e s' o S names : rinv k (ls i) tr0 s -> cinv s -> own e = true ->
  (forall r, dn = Some r -> is_Some (in_flight s)) ->
  rs_step k (ls i) s e = Some (s', o) -> names_ok S names -> simi b i dn s (sh_calls S) names ->
  moves ls b i dn s' S names (sh_now S) (sh_server S) (DoSys i <$> o).
Proof.
  intros [Hb Hw] Hc Hown Hdn H Hok Hsim. pose proof (ra_inv _ _ _ _ (ri_actor _ _ _ _ Hb AtCache)) as Hi. cbn [actor] in Hi.
  destruct e as [c|n|w e|n x|n|n]; cbn [rs_step] in H.
  - injection H as <- <-. destruct Hok as [Hinj Hdom].
    assert (Hnew : names !! sh_next S = None).
    { destruct (names !! sh_next S) eqn:E; [|done]. assert (sh_next S < sh_next S)%nat; [|lia]. apply Hdom. by eexists. }
    set (names' := <[sh_next S := (i, rs_next s)]> names).
    assert (Hsub : names ⊆ names') by (by apply insert_sub).
    exists [XeCall i c]. eexists _, _, names'. cbn [sh_run sh_step]. split; [reflexivity|]. cbn [sh_calls sh_now sh_server sh_next].
    split; [done|]. split; [split|split; [done|split; [done|split; [done|split; [|split; [split|split]]]]]].
    + intros g g' a H1 H2. unfold names' in *. apply lookup_insert_Some in H1 as [[<- <-]|[N1 H1]], H2 as [[<- H2]|[N2 H2]]; try done.
      * exfalso. pose proof (si_lt _ _ _ _ _ _ Hsim _ _ H2). lia.
      * exfalso. subst a. pose proof (si_lt _ _ _ _ _ _ Hsim _ _ H1). lia.
      * by apply (Hinj _ _ a).
    + intros g. unfold names'. destruct (decide (g = sh_next S)) as [->|Hne].
      * rewrite lookup_insert. split; [by eexists|intros _; cbn; lia].
      * rewrite lookup_insert_ne by done. rewrite <- Hdom. cbn. lia.
    + intros g j n Hg Hne. unfold names' in Hg. apply lookup_insert_Some in Hg as [[_ [= <- _]]|[Hg1 Hg]]; [done|]. split; [done|].
      by rewrite lookup_insert_ne.
    + cbn. intros n p v Hn. apply lookup_insert_Some in Hn as [[<- [= <- <-]]|[Hne Hn]].
      * exists (sh_next S). unfold names'. by rewrite !lookup_insert, ahead_free.
      * destruct (si_calls _ _ _ _ _ _ Hsim _ _ _ Hn) as (g & H1 & H2). exists g. split; [by apply (lookup_weaken names)|].
        rewrite lookup_insert_ne; [done|]. intros <-. congruence.
    + cbn. intros m op st Hcu Hd. destruct (si_orphan _ _ _ _ _ _ Hsim m op st Hcu Hd) as (g & n & p & H1 & H2 & H3 & H4).
      exists g, n, p. split; [by apply (lookup_weaken names)|]. pose proof (si_lt _ _ _ _ _ _ Hsim _ _ H1).
      rewrite !lookup_insert_ne; [done|congruence|lia].
    + cbn. intros g n Hg. unfold names' in Hg. apply lookup_insert_Some in Hg as [[_ [= <-]]|[_ Hg]]; [lia|].
      pose proof (si_lt _ _ _ _ _ _ Hsim _ _ Hg). lia.
    + unfold x_obs, d_obs. cbn. constructor; [|constructor]. split; [apply lookup_insert|done].
    + intros g j c' Hx. apply elem_of_list_singleton in Hx. injection Hx as -> -> ->. exists (rs_next s). apply lookup_insert.
  - destruct (rs_calls s !! n) as [[p [v|]]|] eqn:En; try done. destruct (message p) as [[w a]|] eqn:Em; [|done].
    unfold actor_step in H. rewrite actor_calls in H. cbn [rs_calls set_calls] in H.
    destruct (ra_step k (actor w s) (ReSend a true)) as [[a' os]|] eqn:Es; [|done].
    destruct (settle_all w (working_on (actor w s)) os _) as [c out] eqn:Ec. injection H as <- <-.
    assert (Hcur : ra_cur a' = ra_cur (actor w s)).
    { cbn in Es. destruct (ra_alive (actor w s)); by injection Es as <- <-. }
    eapply moves_trace; [|eapply (settled_sim ls b i dn s (set_calls (<[n := (p, Some (w, ra_next (actor w s)))]> (rs_calls s)) s) _ S names w
      (working_on (actor w s)) os c out Hok Hsim Ec)]; [done|..].
    + cbn. intros n' q v Hq. apply lookup_insert_Some in Hq as [[<- [= <- <-]]|[Hne Hq]]; [|by exists v].
      exists None. split; [done|]. rewrite ahead_free. destruct w; [by rewrite ahead_master|].
      destruct (ra_cur (rs_cache s)) as [[[[m op] st] wa]|] eqn:Ecu; [|by rewrite ahead_idle].
      pose proof (cur_lt _ _ _ _ _ Hi Ecu). rewrite ahead_other; [done|]. cbn. lia.
    + cbn. intros o' m t n' q q' e Ho' Hset Hq Hres.
      assert (Hos : os = [ObFail (ra_next (actor w s))] /\ ra_alive (actor w s) = false).
      { destruct (send_pending _ _ _ _ _ Es) as [[_ ->]|[-> ?]]; [by apply elem_of_nil in Ho'|done]. }
      destruct Hos as [-> Hdead]. apply elem_of_list_singleton in Ho' as ->. cbn in Hset. injection Hset as <- <-.
      assert (exists a, message q = Some (w, a)) as [a1 Ha1].
      { apply lookup_insert_Some in Hq as [[<- [= <-]]|[Hne Hq]]; [by exists a|]. destruct (Hw _ _ _ _ Hq) as (a1 & Ha1 & _). by exists a1. }
      destruct w.
      * rewrite ahead_master. split; [done|]. by apply (silent_visit q a1 _ q' e Ha1 Hres).
      * destruct (alive_died _ _ _ _ (ri_actor _ _ _ _ Hb AtCache)) as [[Hal _]|(_ & _ & Hcu & _)]; cbn [actor] in *; [congruence|].
        rewrite Hcu, ahead_idle. split; [done|]. eapply (silent_fail q a1); [done| |exact Hres]. intros y. by case_decide.
    + by rewrite calls_own.
    + by rewrite next_own.
    + destruct w; cbn in *; done.
  - destruct w.
    + assert (Hs : actor_step k AtMaster e s = Some (s', o)) by (destruct e; try done; by destruct (waiter _ n (rs_calls s))).
      clear H. unfold actor_step in Hs. destruct (ra_step k (actor AtMaster s) e) as [[a' os]|] eqn:Es; [|done].
      destruct (settle_all _ _ os _) as [c out] eqn:Ec. injection Hs as <- <-.
      eapply moves_trace; [|eapply (settled_sim ls b i dn s s _ S names AtMaster _ os c out Hok Hsim Ec)]; [done|..]; try done.
      * intros n p v Hn. by exists v.
      * intros o' m t n p p' e' _ _ Hn Hres. rewrite ahead_master. split; [done|]. destruct (Hw _ _ _ _ Hn) as (a & Ha & _).
        by apply (silent_visit p a _ p' e' Ha Hres).
    + destruct e as [a b'|m| |r|u op|u r|u]; try discriminate Hown.
      unfold actor_step in H. cbn [actor ra_step] in H. destruct (ra_alive (rs_cache s)); [|done].
      destruct (ra_cur (rs_cache s)) eqn:Ecur; [done|]. destruct (ra_box (rs_cache s)) as [|q rest] eqn:Ebox; [done|].
      destruct (ci_box _ Hc q ltac:(rewrite Ebox; by left)) as (Hq1 & n & p & Hn & Hm).
      destruct (request_kind _ _ Hm) as (op & Hop & _). rewrite Hop in *.
      assert (Hbw : borrowed (rs_cache s) = false).
      { unfold borrowed. rewrite Ecur. apply bool_decide_eq_false. rewrite (ci_users _ Hc). by intros Hf. }
      rewrite Hbw in H. rewrite settle_none in H by (intros o' Ho'; apply elem_of_list_singleton in Ho'; by subst o').
      injection H as <- <-. destruct dn as [r|].
      { destruct (Hdn r eq_refl) as [op' Hf]. unfold in_flight in Hf. by rewrite Ecur in Hf. }
      apply (still_sim _ _ _ _ s); try done.
      cbn. intros m op' st [= _ _ _ Hf]. congruence.
  - destruct (rs_calls s !! n) as [[p [v|]]|] eqn:En; try done. destruct (message p) as [[w a]|] eqn:Em; [done|].
    destruct (respond (ls i) 0 ∅ p x) as [[[[sv p'] pe] f]|] eqn:Er; [|done]. injection H as <- <-.
    destruct (si_calls _ _ _ _ _ _ Hsim _ _ _ En) as (g & Hg1 & Hg2). rewrite ahead_free in Hg2.
    assert (Hr : respond (ls i) (sh_now S) (sh_server S) p x = Some (sh_server S, p', pe, f) /\
      Forall2 (named names) (x_ob (XoDid g (sh_now S) pe f)) (d_ob (DoSys i (SvoTold n pe)))).
    { destruct p; try discriminate Em; destruct x; try discriminate Er; cbn in Er |- *.
      - injection Er as _ <- <- <-. split; [done|]. repeat constructor. done.
      - injection Er as _ <- <- <-. by split.
      - destruct (verdict_ok _ _ _); [|done]. injection Er as _ <- <- <-. by split. }
    destruct Hr as [Hr Hobs].
    exists [XeStep g x]. eexists _, _, names. cbn [sh_run sh_step]. rewrite Hg2, Hr. split; [reflexivity|].
    cbn [sh_calls sh_now sh_server sh_next]. split; [done|]. split; [exact Hok|]. split; [done|]. split; [done|].
    split; [unfold lates, stored_late; cbn; rewrite fmap_app; by apply submseteq_inserts_r|].
    split; [|split; [split|split]].
    + intros g' j n' Hg' Hne. split; [done|]. rewrite lookup_insert_ne; [done|]. congruence.
    + cbn. intros n' q v Hq. apply lookup_insert_Some in Hq as [[<- [= <- <-]]|[Hne Hq]].
      * exists g. by rewrite lookup_insert, ahead_free.
      * destruct (si_calls _ _ _ _ _ _ Hsim _ _ _ Hq) as (g' & H1 & H2). exists g'. split; [done|]. rewrite lookup_insert_ne; [done|].
        intros <-. congruence.
    + cbn. intros m op st Hcu Hd. destruct (si_orphan _ _ _ _ _ _ Hsim m op st Hcu Hd) as (g' & n' & q & H1 & H2 & H3 & H4).
      exists g', n', q. split; [done|]. rewrite !lookup_insert_ne; [done|congruence|congruence].
    + apply Hsim.
    + rewrite x_obs_one, d_obs_one. exact Hobs.
    + intros g' j c Hx. by apply elem_of_list_singleton in Hx.
  - destruct (rs_calls s !! n) as [[p v]|] eqn:En; [|done]. destruct p; try discriminate. destruct v; [done|].
    injection H as <- <-.
    destruct (si_calls _ _ _ _ _ _ Hsim _ _ _ En) as (g & Hg1 & Hg2). rewrite ahead_free in Hg2.
    exists [XeReturn g]. eexists _, _, names. cbn [sh_run sh_step]. rewrite Hg2. split; [reflexivity|].
    cbn [sh_calls sh_now sh_server sh_next]. split; [done|]. split; [exact Hok|]. split; [done|]. split; [done|]. split; [done|].
    split; [|split; [split|split]].
    + intros g' j n' Hg' Hne. split; [done|]. rewrite lookup_delete_ne; [done|]. congruence.
    + cbn. intros n' q v Hq. apply lookup_delete_Some in Hq as [Hne Hq].
      destruct (si_calls _ _ _ _ _ _ Hsim _ _ _ Hq) as (g' & H1 & H2). exists g'. split; [done|]. rewrite lookup_delete_ne; [done|].
      intros <-. congruence.
    + cbn. intros m op st Hcu Hd. destruct (si_orphan _ _ _ _ _ _ Hsim m op st Hcu Hd) as (g' & n' & q & H1 & H2 & H3 & H4).
      exists g', n', q. split; [done|]. rewrite !lookup_delete_ne; [done|congruence|congruence].
    + apply Hsim.
    + unfold x_obs, d_obs. cbn. constructor; [|constructor]. done.
    + intros g' j c Hx. by apply elem_of_list_singleton in Hx.
  - assert (Hdel : forall n' q v, delete n (rs_calls s) !! n' = Some (q, v) -> rs_calls s !! n' = Some (q, v)).
    { intros n' q v Hq. by apply lookup_delete_Some in Hq as [_ Hq]. }
    destruct (rs_calls s !! n) as [[p [[w m]|]]|] eqn:En; [| |done].
    + destruct (actor_step _ _ _ _) as [[s1 o1]|] eqn:Es; [|done]. injection H as <- <-.
      unfold actor_step in Es. rewrite actor_calls in Es. cbn [rs_calls set_calls] in Es.
      destruct w.
      * destruct (ra_step k (actor AtMaster s) (ReGone m)) as [[a' os]|] eqn:Er; [|done].
        destruct (settle_all _ _ os _) as [c out] eqn:Ec. injection Es as <- <-.
        eapply moves_trace; [|eapply (settled_sim ls b i dn s (set_calls (delete n (rs_calls s)) s) _ S names AtMaster _ os c out Hok Hsim Ec)];
          [done|..]; try done.
        -- cbn. intros n' q v Hn. exists v. split; [by apply Hdel|done].
        -- cbn. intros o' m' t n' q q' e' _ _ Hn Hres. rewrite ahead_master. split; [done|].
           destruct (Hw _ _ _ _ (Hdel _ _ _ Hn)) as (a & Ha & _). by apply (silent_visit q a _ q' e' Ha Hres).
      * cbn [actor ra_step] in Es.
        assert (Hleft : forall b : bool, forall o, o ∈ (if b then [ObLeft m] else []) -> settled_by (working_on (rs_cache s)) o = None).
        { intros [] o' Ho'; [by apply elem_of_list_singleton in Ho' as ->|by apply elem_of_nil in Ho']. }
        destruct (ra_cur (rs_cache s)) as [[[[x op] st] [|]]|] eqn:Ec; [destruct (Nat.eqb_spec x m) as [->|Hne]|..];
          (rewrite settle_none in Es by first [apply Hleft|intros o' Ho'; apply elem_of_app in Ho' as [Ho'|Ho'];
            [by apply (Hleft _ _ Ho')|by apply elem_of_list_singleton in Ho' as ->]]); injection Es as <- <-;
          (apply (still_sim _ _ _ _ s); [done|done| |done| |done]).
        -- cbn. rewrite Ec. intros n' q v Hq. split; [by apply Hdel|done].
        -- cbn. intros m' op' st' [= <- <- <-] _. right. exists n, p, (Some (AtCache, m)). split; [done|]. split; [apply lookup_delete|].
           destruct (Hw _ _ _ _ En) as (a & Ha & Hp). by destruct (pending_cur _ _ _ _ _ _ Hi Hp Ec) as [-> _].
        -- cbn. rewrite Ec. intros n' q v Hq. split; [by apply Hdel|done].
        -- cbn. rewrite Ec. intros m' op' st' Hf. done.
        -- cbn. rewrite Ec. intros n' q v Hq. split; [by apply Hdel|done].
        -- cbn. rewrite Ec. intros m' op' st' Hf _. by left.
        -- cbn. rewrite Ec. intros n' q v Hq. split; [by apply Hdel|done].
        -- cbn. rewrite Ec. done.
    + injection H as <- <-. apply (still_sim _ _ _ _ s); [done|done| |done| |done].
      * cbn. intros n' q v Hq. split; [by apply Hdel|done].
      * cbn. intros m op st Hcu _. by left.
Qed.

(** The reply arrives, or the error. *)
Lemma reply_sim k ls i (b b' : bool) (dn : option rreply) tr0 s r s' o S names m op st w : rinv k (ls i) tr0 s -> cinv s ->
  ra_cur (rs_cache s) = Some (m, op, st, w) ->
  ((dn = None /\ forall p p' e, message p = Some (AtCache, AcCommand op st) -> resume p (told_of op r) = Some (p', e) -> silent p p') \/
   exists r0, dn = Some r0 /\ r = if b then r0 else RrErr "connection") ->
  rs_step k (ls i) s (SvActor AtCache (ReReply r)) = Some (s', o) -> names_ok S names -> simi b i dn s (sh_calls S) names ->
  moves ls b' i None s' S names (sh_now S) (sh_server S) (DoSys i <$> o).
Proof.
  intros [Hb Hw] Hc Ecur Hr H Hok Hsim. pose proof (ra_inv _ _ _ _ (ri_actor _ _ _ _ Hb AtCache)) as Hi. cbn [actor] in Hi.
  cbn [rs_step] in H. unfold actor_step in H. cbn [actor] in H.
  destruct (ra_step k (rs_cache s) (ReReply r)) as [[a os]|] eqn:Es; [|done].
  destruct (settle_all _ _ os _) as [c out] eqn:Ec. injection H as <- <-.
  assert (Hwk : working_on (rs_cache s) = Some m) by (unfold working_on; by rewrite Ecur). rewrite Hwk in Ec.
  (* what the actor does *)
  assert (Hos : ra_cur a = None /\ forall ob m' t, ob ∈ os -> settled_by (Some m) ob = Some (m', t) ->
     (m' = m /\ (w = true -> t = told_of op r)) \/ (m' <> m /\ t = TdClosed)).
  { cbn [ra_step] in Es. rewrite Ecur in Es.
    assert (Hdie : (w = true -> told_of op r = TdDropped) -> Some (die (rs_cache s)) = Some (a, os) ->
      ra_cur a = None /\ forall ob m' t, ob ∈ os -> settled_by (Some m) ob = Some (m', t) ->
     (m' = m /\ (w = true -> t = told_of op r)) \/ (m' <> m /\ t = TdClosed)).
    { intros Ht [= <- <-]. split; [done|]. intros ob m' t Hob Hset. apply elem_of_cons in Hob as [->|Hob]; [done|].
      apply elem_of_list_fmap in Hob as (m1 & -> & _). cbn in Hset. injection Hset as <- <-.
      destruct (decide (m1 = m)) as [->|Hne].
      - left. split; [done|]. rewrite decide_True by done. intros Hwt. by rewrite Ht.
      - right. split; [done|]. rewrite decide_False; [done|]. congruence. }
    unfold told_of in *. destruct (rc_answer op r) as [x|] eqn:Er; [|by apply Hdie].
    destruct w; [|destruct st; [by apply Hdie|]]; injection Es as <- <-; (split; [done|]); intros ob m' t Hob Hset.
    - apply elem_of_list_singleton in Hob as ->. cbn in Hset. injection Hset as <- <-. by left.
    - by apply elem_of_nil in Hob. }
  destruct Hos as [Hcur Hos].
  assert (Hmsg : forall n p, rs_calls s !! n = Some (p, Some (AtCache, m)) -> message p = Some (AtCache, AcCommand op st) /\ w = true).
  { intros n p Hn. destruct (Hw _ _ _ _ Hn) as (a1 & Ha1 & Hp). by destruct (pending_cur _ _ _ _ _ _ Hi Hp Ecur) as [-> ->]. }
  destruct (settle_sim ls i names AtCache (Some m) os (proj1 Hok) _ _ _ S (fun _ p v => ahead b dn (ra_cur (rs_cache s)) p v) Ec) as (S' & Hq & Hfin).
  { intros n p v Hn. by apply Hsim. }
  { intros ob m' t n p p' e Hob Hset Hn Hres. rewrite Ecur.
    destruct (Hos _ _ _ Hob Hset) as [[-> Ht]|[Hne ->]].
    - destruct (Hmsg _ _ Hn) as [Hm Hwt]. rewrite (Ht Hwt) in Hres. destruct Hr as [[-> Hsil]|(r0 & -> & ->)].
      + right. split; [done|]. by apply (Hsil p p' e).
      + left. cbn [ahead]. rewrite decide_True by done. by rewrite Hres.
    - right. rewrite ahead_other by done. split; [done|]. destruct (Hw _ _ _ _ Hn) as (a1 & Ha1 & _).
      by apply (silent_fail p a1 TdClosed p' e). }
  destruct (settle_all_spec AtCache (Some m) os (rs_calls s) c out (ri_once _ _ _ _ Hb AtCache) Ec) as [_ Hspec].
  { intros n p m' Hn. destruct (Hw _ _ _ _ Hn) as (a1 & Ha1 & _). by eexists. }
  apply (moves_quiet _ _ _ _ _ _ _ _ _ _ Hok Hq).
  - intros g (n & p & m' & H1 & _). by exists n.
  - split; cbn.
    + intros n p v Hn. destruct (Hfin n p v Hn) as (g & H1 & H2). exists g. split; [done|]. cbn in H2.
      destruct H2 as [[H2 H3]|(_ & H3 & _)]; [|done]. rewrite H3, Ecur. f_equal. f_equal.
      destruct v as [[[|] m']|]; [by rewrite ahead_master| |by rewrite ahead_free].
      destruct (decide (m' = m)) as [->|Hne]; [|by rewrite ahead_other].
      exfalso. destruct (Hmsg _ _ H2) as [_ ->].
      destruct (Hspec n) as [(_ & _ & Hno)|(p0 & m0 & o0 & t0 & p0' & e0 & _ & _ & _ & _ & H5 & _)]; [|congruence].
      cbn [ra_step] in Es. rewrite Ecur in Es.
      destruct (rc_answer op r) as [x|]; injection Es as <- <-.
      * by apply (Hno p m H2 (ObAnswer m x) (TdAnswer x) (ltac:(by left))).
      * eapply (Hno p m H2 (ObFail m)); [|reflexivity]. right. apply elem_of_list_fmap. exists m. split; [done|].
        unfold waiting. rewrite Ecur. by left.
    + rewrite Hcur. done.
    + apply Hsim.
  - rewrite fmap_cons. unfold d_obs. cbn [mbind list_bind d_ob app]. by apply (settle_told_quiet _ _ _ _ _ _ _ Ec).
Qed.

(** Whose command it is. *)
Lemma owner k ls i b tr0 s S names m op st w : rinv k (ls i) tr0 s -> cinv s -> ra_cur (rs_cache s) = Some (m, op, st, w) ->
  simi b i None s (sh_calls S) names ->
  exists g n p, names !! g = Some (i, n) /\ sh_calls S !! g = Some (i, p) /\ message p = Some (AtCache, AcCommand op st) /\
    (rs_calls s !! n = Some (p, Some (AtCache, m)) \/
     rs_calls s !! n = None /\ forall n' p', rs_calls s !! n' <> Some (p', Some (AtCache, m))).
Proof.
  intros [Hb Hw] Hc Ecur Hsim. pose proof (ra_inv _ _ _ _ (ri_actor _ _ _ _ Hb AtCache)) as Hi. cbn [actor] in Hi. destruct w.
  - destruct (ci_cur _ Hc _ _ _ _ Ecur) as [_ Ha]. destruct (Ha eq_refl) as (n & p & Hn & Hm).
    destruct (si_calls _ _ _ _ _ _ Hsim _ _ _ Hn) as (g & H1 & H2). exists g, n, p. split; [done|]. split; [done|].
    split; [done|]. by left.
  - destruct (si_orphan _ _ _ _ _ _ Hsim _ _ _ Ecur eq_refl) as (g & n & p & H1 & H2 & H3 & H4). exists g, n, p.
    split; [done|]. split; [done|]. split; [done|]. right. split; [done|]. intros n' p' Hn'.
    destruct (Hw _ _ _ _ Hn') as (a1 & _ & Hp). by destruct (pending_cur _ _ _ _ _ _ Hi Hp Ecur).
Qed.
(** It is told what the reply, or the error, will be. *)
Lemma told_ahead k ls i b b' tr0 s S names m op st w g n p p' e r : rinv k (ls i) tr0 s ->
  ra_cur (rs_cache s) = Some (m, op, st, w) -> names_ok S names -> simi b' i None s (sh_calls S) names ->
  names !! g = Some (i, n) ->
  (rs_calls s !! n = Some (p, Some (AtCache, m)) \/
     rs_calls s !! n = None /\ forall n' p', rs_calls s !! n' <> Some (p', Some (AtCache, m))) ->
  resume p (told_of op (if b : bool then r else RrErr "connection")) = Some (p', e) ->
  simi b i (Some r) s (<[g := (i, p')]> (sh_calls S)) names.
Proof.
  intros [Hb Hw] Ecur Hok Hsim Hg1 Hwho Hres. split.
  - intros n' q v Hq. destruct (si_calls _ _ _ _ _ _ Hsim _ _ _ Hq) as (g' & H1 & H2). rewrite ahead_none in H2. exists g'. split; [done|].
    rewrite Ecur. destruct (decide (n' = n)) as [->|Hne].
    + assert (g' = g) as -> by (by apply (proj1 Hok g' g (i, n))). rewrite lookup_insert.
      destruct Hwho as [Hn|[Hn _]]; [|congruence]. rewrite Hq in Hn. injection Hn as -> ->. cbn [ahead].
      rewrite decide_True by done. by rewrite Hres.
    + rewrite lookup_insert_ne by (intros <-; congruence). rewrite H2. f_equal. f_equal.
      destruct v as [[[|] m']|]; [by rewrite ahead_master| |by rewrite ahead_free].
      destruct (decide (m' = m)) as [->|Hne']; [|by rewrite ahead_other].
      exfalso. destruct Hwho as [Hn|[_ Hn]]; [|by apply Hn in Hq]. by apply Hne, (ri_once _ _ _ _ Hb AtCache n' n q p m).
  - done.
  - apply Hsim.
Qed.
(** The server executes the command. *)
Lemma exec_sim k ls i b tr0 s S names m op st w sv r : rinv k (ls i) tr0 s -> cinv s ->
  ra_cur (rs_cache s) = Some (m, op, st, w) -> serve (sh_now S) (sh_server S) (rc_cmd op) = Some (sv, r) ->
  names_ok S names -> simi b i None s (sh_calls S) names ->
  moves ls b i (Some r) s S names (sh_now S) sv [DoExec i (sh_now S) (rc_cmd op)].
Proof.
  intros Hr Hc Ecur Hsrv Hok Hsim. destruct (owner _ _ _ _ _ _ _ _ _ _ _ _ Hr Hc Ecur Hsim) as (g & n & p & Hg1 & Hg2 & Hm & Hwho).
  destruct (request_kind _ _ Hm) as (op' & [= <- ->] & [[Hno _]|(_ & _ & _ & Htok)]); [by rewrite Hno in Hsrv|].
  destruct (Htok _ _ _ _ b (ls i) Hsrv) as (p' & e & f & Hresp & Hres & Hobs).
  exists [XeStep g (XToken (if b then Answered else AnswerLost))]. eexists _, _, names. cbn [sh_run sh_step]. rewrite Hg2, Hresp.
  split; [reflexivity|]. cbn [sh_calls sh_now sh_server sh_next]. split; [done|]. split; [exact Hok|]. split; [done|]. split; [done|].
  split; [unfold lates, stored_late; cbn; rewrite fmap_app; by apply submseteq_inserts_r|].
  split; [|split; [|split]].
  - intros g' j n' Hg' Hne. split; [done|]. rewrite lookup_insert_ne; [done|]. congruence.
  - by apply (told_ahead k ls i b b tr0 s S names m op true w g n p p' e r).
  - rewrite x_obs_one, Hobs. unfold d_obs. cbn. by repeat constructor.
  - intros g' j c Hx. by apply elem_of_list_singleton in Hx.
Qed.
(** It will not be executed before the error arrives. *)
Lemma break_sim k ls i b tr0 s S names m op st w r : rinv k (ls i) tr0 s -> cinv s ->
  ra_cur (rs_cache s) = Some (m, op, st, w) -> is_Some (serve (sh_now S) (sh_server S) (rc_cmd op)) ->
  names_ok S names -> simi b i None s (sh_calls S) names ->
  exists es S' tr, sh_run ls S es = Some (S', tr) /\ x_obs tr = [] /\ (forall g j c, XoCall g j c ∉ tr) /\
    sh_now S' = sh_now S /\ sh_server S' = sh_server S /\ sh_next S' = sh_next S /\
    lates S' = lates S ++ adds [rc_cmd op] /\
    (forall g j n, names !! g = Some (j, n) -> j <> i -> sh_calls S' !! g = sh_calls S !! g) /\
    simi false i (Some r) s (sh_calls S') names.
Proof.
  intros Hr Hc Ecur Hsrv Hok Hsim. destruct (owner _ _ _ _ _ _ _ _ _ _ _ _ Hr Hc Ecur Hsim) as (g & n & p & Hg1 & Hg2 & Hm & Hwho).
  destruct (request_kind _ _ Hm) as (op' & [= <- ->] & [[Hno _]|(_ & _ & Hbr & _)]); [rewrite Hno in Hsrv; by destruct Hsrv|].
  destruct (Hbr (sh_now S) (sh_server S) (ls i)) as (p' & e & f & Hresp & Hres & Hobs). destruct (Hobs g) as [Hob Hlate].
  exists [XeStep g (XToken NotSent)]. eexists _, _. cbn [sh_run sh_step]. rewrite Hg2, Hresp.
  split; [reflexivity|]. split; [rewrite x_obs_one; exact Hob|]. split; [intros g' j c Hx; by apply elem_of_list_singleton in Hx|].
  do 3 (split; [done|]). split; [|split].
  - rewrite Hlate. unfold lates, stored_late. cbn [sh_late]. by rewrite fmap_app.
  - intros g' j n' Hg' Hne. cbn. rewrite lookup_insert_ne; [done|]. congruence.
  - by apply (told_ahead k ls i false b tr0 s S names m op true w g n p p' e r).
Qed.

(** * The whole deployment *)
Record dinv (k : conn) (ls : nat -> pow_lib) (d : depl) : Prop := {
  di_rinv : forall i, exists tr, rinv k (ls i) tr (sys i d);
  di_cinv : forall i, cinv (sys i d);
  di_done : forall i r, dp_done d !! i = Some r -> exists op, in_flight (sys i d) = Some op /\
    forall now sv, is_Some (serve now sv (rc_cmd op));
  di_late : forall cmd, cmd ∈ dp_late d -> exists c, cmd = rc_cmd (token_cmd c) }.
Lemma sys_insert i s d now sv dn lt : sys i (Depl now sv (<[i := s]> (dp_sys d)) dn lt) = s.
Proof. unfold sys. cbn. by rewrite lookup_insert. Qed.
Lemma sys_insert_ne i j s d now sv dn lt : j <> i -> sys j (Depl now sv (<[i := s]> (dp_sys d)) dn lt) = sys j d.
Proof. intros H. unfold sys. cbn. by rewrite lookup_insert_ne. Qed.
Lemma cur_token k ls d i op : dinv k ls d -> in_flight (sys i d) = Some op ->
  forall now sv, is_Some (serve now sv (rc_cmd op)) -> (forall now sv, is_Some (serve now sv (rc_cmd op))) /\
    exists c, rc_cmd op = rc_cmd (token_cmd c).
Proof.
  intros H Hf now sv Hs. unfold in_flight in Hf. destruct (ra_cur (rs_cache (sys i d))) as [[[[m op'] st] w]|] eqn:E; [|done].
  injection Hf as ->. destruct (ci_cur _ (di_cinv _ _ _ H i) _ _ _ _ E) as [[p Hp] _].
  destruct (request_kind _ _ Hp) as (op' & [= <- _] & [[Hno _]|(Hcmd & Htok & _)]); [|done].
  rewrite Hno in Hs. by destruct Hs.
Qed.
Lemma dinv_step k ls d e d' o : dinv k ls d -> dp_step k ls d e = Some (d', o) -> dinv k ls d'.
Proof.
  intros Hd H. destruct e as [i e|i|i v|lj|c f|t]; cbn [dp_step] in H.
  - destruct (own e) eqn:Eo; [|done]. destruct (rs_step k (ls i) (sys i d) e) as [[s o1]|] eqn:Es; [|done]. injection H as <- <-.
    destruct (di_rinv _ _ _ Hd i) as [tr Hr]. destruct (cinv_step _ _ _ _ _ _ _ Hr (di_cinv _ _ _ Hd i) Es (or_introl Eo)) as [Hc Hf].
    unfold set_sys. split.
    + intros j. destruct (decide (j = i)) as [->|Hne]; [|rewrite sys_insert_ne by done; apply Hd]. rewrite sys_insert.
      exists (tr ++ o1). by apply (rinv_step _ _ _ _ _ _ _ Hr Es).
    + intros j. destruct (decide (j = i)) as [->|Hne]; [by rewrite sys_insert|rewrite sys_insert_ne by done; apply Hd].
    + cbn [dp_done]. intros j r Hj. destruct (di_done _ _ _ Hd j r Hj) as (op & H1 & H2). exists op. split; [|done].
      destruct (decide (j = i)) as [->|Hne]; [|by rewrite sys_insert_ne]. rewrite sys_insert. by apply Hf.
    + apply Hd.
  - destruct (in_flight (sys i d)) as [op|] eqn:Ef; [|done]. destruct (dp_done d !! i) eqn:Edn; [done|].
    destruct (serve (dp_now d) (dp_server d) (rc_cmd op)) as [[sv r]|] eqn:Es; [|done]. injection H as <- <-.
    split; [apply Hd|apply Hd| |apply Hd]. cbn [dp_done]. intros j r' Hj. change (sys j (Depl _ _ _ _ _)) with (sys j d).
    apply lookup_insert_Some in Hj as [[<- _]|[_ Hj]]; [|by apply (di_done _ _ _ Hd j r')]. exists op. split; [done|].
    apply (cur_token _ _ _ _ _ Hd Ef (dp_now d) (dp_server d)). by eexists.
  - destruct (in_flight (sys i d)) as [op|] eqn:Ef; [|done]. destruct (delivered d i op v) as [r|] eqn:Edv; [|done].
    destruct (rs_step k (ls i) (sys i d) (SvActor AtCache (ReReply r))) as [[s o1]|] eqn:Es; [|done]. injection H as <- <-.
    destruct (di_rinv _ _ _ Hd i) as [tr Hr].
    destruct (cinv_step _ _ _ _ _ _ _ Hr (di_cinv _ _ _ Hd i) Es ltac:(right; by exists r)) as [Hc _].
    split.
    + intros j. destruct (decide (j = i)) as [->|Hne]; [|rewrite sys_insert_ne by done; apply Hd]. rewrite sys_insert.
      exists (tr ++ o1). by apply (rinv_step _ _ _ _ _ _ _ Hr Es).
    + intros j. destruct (decide (j = i)) as [->|Hne]; [by rewrite sys_insert|rewrite sys_insert_ne by done; apply Hd].
    + cbn [dp_done]. intros j r' Hj. apply lookup_delete_Some in Hj as [Hne Hj]. rewrite sys_insert_ne by done.
      by apply (di_done _ _ _ Hd j r').
    + cbn [dp_late]. intros cmd Hin. apply elem_of_app in Hin as [Hin|Hin]; [by apply (di_late _ _ _ Hd)|].
      unfold left_behind in Hin. destruct v; try (by apply elem_of_nil in Hin).
      destruct (dp_done d !! i); [by apply elem_of_nil in Hin|]. apply elem_of_list_singleton in Hin as ->.
      unfold delivered in Edv. destruct (serve (dp_now d) (dp_server d) (rc_cmd op)) eqn:Ev; [|done].
      apply (cur_token _ _ _ _ _ Hd Ef (dp_now d) (dp_server d)). by eexists.
  - destruct (dp_late d !! lj) as [cmd|] eqn:Ej; [|done].
    destruct (serve (dp_now d) (dp_server d) cmd) as [[sv r]|]; [|done]. injection H as <- <-.
    split; try apply Hd. cbn [dp_late]. intros cmd' Hin. apply (di_late _ _ _ Hd). rewrite (delete_Permutation _ _ _ Ej). by right.
  - destruct c; [done| |]; destruct (token_step _ _) as [sv x]; injection H as <- <-; by split; apply Hd.
  - injection H as <- <-. by split; apply Hd.
Qed.
Lemma cinv_init : cinv rs_init.
Proof. split; cbn; [done|by intros q Hq%elem_of_nil|done]. Qed.
Lemma sys_init i now : sys i (dp_init now) = rs_init.
Proof. unfold sys, dp_init. cbn. by rewrite lookup_empty. Qed.
Lemma dinv_init k ls now : dinv k ls (dp_init now).
Proof.
  split.
  - intros i. rewrite sys_init. exists []. apply rinv_init.
  - intros i. rewrite sys_init. apply cinv_init.
  - intros i r. cbn. by rewrite lookup_empty.
  - by intros cmd Hx%elem_of_nil.
Qed.

Record sim (ch : nat -> bool) (d : depl) (S : shared) (names : namings) : Prop := {
  sm_now : sh_now S = dp_now d;
  sm_server : sh_server S = dp_server d;
  sm_names : names_ok S names;
  sm_late : adds (dp_late d) ⊆+ lates S;
  sm_sys : forall i, simi (ch i) i (dp_done d !! i) (sys i d) (sh_calls S) names }.
Lemma simi_frame b i dn s calls calls' (names names' : namings) : simi b i dn s calls names -> names ⊆ names' ->
  (forall g n, names' !! g = Some (i, n) -> names !! g = Some (i, n) /\ calls' !! g = calls !! g) -> simi b i dn s calls' names'.
Proof.
  intros H Hsub Hf. split.
  - intros n p v Hc. destruct (si_calls _ _ _ _ _ _ H _ _ _ Hc) as (g & H1 & H2). exists g.
    assert (Hg : names' !! g = Some (i, n)) by (by apply (lookup_weaken names)). split; [done|]. by rewrite (proj2 (Hf _ _ Hg)).
  - intros m op st Hc Hd. destruct (si_orphan _ _ _ _ _ _ H _ _ _ Hc Hd) as (g & n & p & H1 & H2 & H3 & H4). exists g, n, p.
    assert (Hg : names' !! g = Some (i, n)) by (by apply (lookup_weaken names)). split; [done|]. split; [done|].
    split; [|done]. by rewrite (proj2 (Hf _ _ Hg)).
  - intros g n Hg. apply (si_lt _ _ _ _ _ _ H g). by apply Hf.
Qed.
(** The shared model follows. *)
Definition follow (ls : nat -> pow_lib) (ch : nat -> bool) (d' : depl) (S : shared) (names : namings) (o : list dout) : Prop :=
  exists es S' tr names', sh_run ls S es = Some (S', tr) /\ names ⊆ names' /\ sim ch d' S' names' /\
    Forall2 (named names') (x_obs tr) (d_obs o) /\ forall g j c, XoCall g j c ∈ tr -> exists n, names' !! g = Some (j, n).
Lemma moves_sim ls ch ch' i d d' S names o : sim ch d S names ->
  moves ls (ch' i) i (dp_done d' !! i) (sys i d') S names (dp_now d') (dp_server d') o ->
  (forall j, j <> i -> sys j d' = sys j d /\ dp_done d' !! j = dp_done d !! j /\ ch' j = ch j) ->
  dp_late d' = dp_late d -> follow ls ch' d' S names o.
Proof.
  intros Hs (es & S' & tr & names' & H1 & H2 & H3 & H4 & H5 & H10 & H6 & H7 & H8 & H9) Hj Hlate.
  exists es, S', tr, names'. split; [done|]. split; [done|]. split; [|done]. split; try done.
  { rewrite Hlate. transitivity (lates S); [apply Hs|done]. }
  intros j.
  destruct (decide (j = i)) as [->|Hne]; [done|]. destruct (Hj j Hne) as (-> & -> & ->).
  apply (simi_frame _ _ _ _ (sh_calls S) _ names); [apply Hs|done|]. intros g n Hg. by apply (H6 g j n).
Qed.
Definition choose (ch : nat -> bool) (i : nat) (b : bool) (j : nat) : bool := if decide (j = i) then b else ch j.
Lemma choose_here ch i b : choose ch i b i = b.
Proof. unfold choose. by rewrite decide_True. Qed.
Lemma choose_ne ch i b j : j <> i -> choose ch i b j = ch j.
Proof. intros H. unfold choose. by rewrite decide_False. Qed.
Lemma step_sim k ls d e d' o : dinv k ls d -> dp_step k ls d e = Some (d', o) -> forall ch',
  exists ch, forall S names, sim ch d S names -> follow ls ch' d' S names o.
Proof.
  intros Hd H ch'. destruct e as [i e|i|i v|lj|c f|t]; cbn [dp_step] in H.
  - destruct (own e) eqn:Eo; [|done]. destruct (rs_step k (ls i) (sys i d) e) as [[s o1]|] eqn:Es; [|done]. injection H as <- <-.
    exists ch'. intros S names Hs. apply (moves_sim ls ch' ch' i d).
    + done.
    + unfold set_sys. rewrite sys_insert. cbn [dp_done dp_now dp_server]. rewrite <- (sm_now _ _ _ _ Hs), <- (sm_server _ _ _ _ Hs).
      destruct (di_rinv _ _ _ Hd i) as [tr Hr]. apply (sys_sim k ls i (ch' i) _ tr (sys i d) e s o1 S names Hr); try done; try apply Hs.
      * apply Hd.
      * intros r Hdn. destruct (di_done _ _ _ Hd i r Hdn) as (op & Hop & _). by eexists.
    + intros j Hne. unfold set_sys. by rewrite sys_insert_ne.
    + done.
  - destruct (in_flight (sys i d)) as [op|] eqn:Ef; [|done]. destruct (dp_done d !! i) eqn:Edn; [done|].
    destruct (serve (dp_now d) (dp_server d) (rc_cmd op)) as [[sv r]|] eqn:Es; [|done]. injection H as <- <-.
    exists ch'. intros S names Hs. apply (moves_sim ls ch' ch' i d).
    + done.
    + change (sys i (Depl _ _ _ _ _)) with (sys i d). cbn [dp_done dp_now dp_server]. rewrite lookup_insert.
      rewrite <- (sm_now _ _ _ _ Hs) in *. rewrite <- (sm_server _ _ _ _ Hs) in *.
      destruct (di_rinv _ _ _ Hd i) as [tr Hr]. unfold in_flight in Ef.
      destruct (ra_cur (rs_cache (sys i d))) as [[[[m op'] st] w]|] eqn:Ecur; [|done]. injection Ef as ->.
      apply (exec_sim k ls i (ch' i) tr (sys i d) S names m op st w sv r); try done; try apply Hs; [apply Hd|].
      pose proof (sm_sys _ _ _ _ Hs i) as Hsi. by rewrite Edn in Hsi.
    + intros j Hne. change (sys j (Depl _ _ _ _ _)) with (sys j d). cbn [dp_done]. by rewrite lookup_insert_ne.
    + done.
  - destruct (in_flight (sys i d)) as [op|] eqn:Ef; [|done]. destruct (delivered d i op v) as [r|] eqn:Edv; [|done].
    destruct (rs_step k (ls i) (sys i d) (SvActor AtCache (ReReply r))) as [[s o1]|] eqn:Es; [|done]. injection H as <- <-.
    set (b := match v with DvReply => true | _ => false end).
    exists (choose ch' i b). intros S names Hs.
    destruct (di_rinv _ _ _ Hd i) as [tr Hr]. pose proof Ef as Ef'. unfold in_flight in Ef'.
    destruct (ra_cur (rs_cache (sys i d))) as [[[[m op'] st] w]|] eqn:Ecur; [|done]. injection Ef' as ->.
    pose proof (sm_sys _ _ _ _ Hs i) as Hsi. rewrite choose_here in Hsi.
    assert (Hother : forall d1 late j, j <> i -> dp_sys d1 = dp_sys d -> delete i (dp_done d1) = delete i (dp_done d) ->
      sys j (Depl (dp_now d) (dp_server d) (<[i := s]> (dp_sys d)) (delete i (dp_done d)) late) = sys j d1 /\
      delete i (dp_done d) !! j = dp_done d1 !! j /\ ch' j = choose ch' i b j).
    { intros d1 late j Hne H1 H2. rewrite sys_insert_ne, choose_ne by done. split; [unfold sys; by rewrite H1|]. split; [|done].
      rewrite <- H2. by rewrite lookup_delete_ne. }
    destruct (decide (left_behind d i op v = [])) as [Hlb|Hlb].
    { rewrite Hlb, app_nil_r. apply (moves_sim ls (choose ch' i b) ch' i d); [done| |by intros j Hne; apply Hother|done].
      rewrite sys_insert. cbn [dp_done dp_now dp_server]. rewrite lookup_delete.
      rewrite <- (sm_now _ _ _ _ Hs), <- (sm_server _ _ _ _ Hs).
      apply (reply_sim k ls i b (ch' i) (dp_done d !! i) tr (sys i d) r s o1 S names m op st w); try done; try apply Hs; [apply Hd|].
      unfold delivered in Edv. destruct (serve (dp_now d) (dp_server d) (rc_cmd op)) as [x|] eqn:Ev; destruct v; try discriminate Edv.
      - right. by exists r.
      - injection Edv as <-. unfold left_behind in Hlb. destruct (dp_done d !! i) as [r0|]; [right; by exists r0|done].
      - injection Edv as ->. destruct (dp_done d !! i) as [r0|] eqn:Edn.
        { destruct (di_done _ _ _ Hd i r0 Edn) as (op' & Hop & Htok). rewrite Ef in Hop. injection Hop as <-.
          destruct (Htok (dp_now d) (dp_server d)). congruence. }
        left. split; [done|]. intros p p' e Hp Hres.
        destruct (request_kind _ _ Hp) as (op' & [= <- _] & [[_ Hsil]|(_ & Htok & _)]); [by apply (Hsil r p' e)|].
        destruct (Htok (dp_now d) (dp_server d)). congruence. }
    (* the error arrives before the command is executed *)
    assert (Hbr : v = DvBroken /\ dp_done d !! i = None /\ left_behind d i op v = [rc_cmd op]).
    { unfold left_behind in *. destruct v; try done. by destruct (dp_done d !! i). }
    destruct Hbr as (-> & Hdn & Hlb'). rewrite Hlb'. rewrite Hdn in Hsi. unfold delivered in Edv.
    destruct (serve (dp_now d) (dp_server d) (rc_cmd op)) as [x|] eqn:Ev; [|done]. injection Edv as <-.
    set (r0 := RrErr "").
    destruct (break_sim k ls i b tr (sys i d) S names m op st w r0 Hr (di_cinv _ _ _ Hd i) Ecur) as
      (es1 & S1 & tr1 & B1 & B2 & B3 & B4 & B5 & B6 & B7 & B8 & B9); [|apply Hs|done|].
    { rewrite (sm_now _ _ _ _ Hs), (sm_server _ _ _ _ Hs), Ev. by eexists. }
    set (d1 := Depl (dp_now d) (dp_server d) (dp_sys d) (<[i := r0]> (dp_done d)) (dp_late d ++ [rc_cmd op])).
    assert (Hs1 : sim (choose ch' i b) d1 S1 names).
    { split; cbn [d1 dp_now dp_server dp_late dp_done].
      - rewrite B4. apply Hs.
      - rewrite B5. apply Hs.
      - destruct (sm_names _ _ _ _ Hs) as [N1 N2]. split; [done|]. by rewrite B6.
      - unfold adds. rewrite filter_app, B7. apply submseteq_app; [apply Hs|done].
      - intros j. change (sys j d1) with (sys j d). destruct (decide (j = i)) as [->|Hne].
        + rewrite lookup_insert, choose_here. exact B9.
        + rewrite lookup_insert_ne by done. apply (simi_frame _ _ _ _ (sh_calls S) _ names); [apply Hs|done|].
          intros g n Hg. split; [done|]. by apply (B8 g j n). }
    destruct (moves_sim ls (choose ch' i b) ch' i d1
      (Depl (dp_now d) (dp_server d) (<[i := s]> (dp_sys d)) (delete i (dp_done d)) (dp_late d ++ [rc_cmd op])) S1 names (DoSys i <$> o1) Hs1)
      as (es2 & S2 & tr2 & names2 & C1 & C2 & C3 & C4 & C5).
    { rewrite sys_insert. cbn [dp_done dp_now dp_server]. rewrite lookup_delete.
      rewrite <- (sm_now _ _ _ _ Hs), <- (sm_server _ _ _ _ Hs), <- B4, <- B5.
      apply (reply_sim k ls i false (ch' i) (Some r0) tr (sys i d) (RrErr "connection") s o1 S1 names m op st w); try done; try apply Hs1; [apply Hd|].
      right. by exists r0. }
    { intros j Hne. apply Hother; [done|done|]. unfold d1. cbn. by rewrite delete_insert_delete. }
    { done. }
    exists (es1 ++ es2), S2, (tr1 ++ tr2), names2. rewrite sh_run_app, B1, C1. split; [done|]. split; [done|]. split; [done|].
    rewrite x_obs_app, B2. split; [done|]. intros g j c Hx. apply elem_of_app in Hx as [Hx|Hx]; [by apply B3 in Hx|by apply (C5 g j c)].
  - destruct (dp_late d !! lj) as [cmd|] eqn:Ej; [|done].
    destruct (serve (dp_now d) (dp_server d) cmd) as [[sv r]|] eqn:Ev; [|done]. injection H as <- <-.
    exists ch'. intros S names Hs. pose proof (delete_Permutation _ _ _ Ej) as Hperm.
    destruct (di_late _ _ _ Hd cmd) as [c Hcmd]; [by apply elem_of_list_lookup_2 in Ej|].
    destruct (decide (head cmd = Some "SET"%string)) as [Hset|Hset].
    + pose proof (sm_late _ _ _ _ Hs) as Hl. unfold adds in Hl. rewrite Hperm, filter_cons_True in Hl by done.
      apply submseteq_cons_l in Hl as (ys & Hys & Hl).
      assert (Hin : cmd ∈ lates S) by (rewrite Hys; by left).
      apply elem_of_list_fmap in Hin as ([n m] & Hm & Hin). change (cmd = rc_cmd (token_cmd (TkAdd m))) in Hm. apply elem_of_list_lookup in Hin as [q Hq].
      assert (Hdel : lates S ≡ₚ cmd :: stored_late (delete q (sh_late S))).
      { unfold lates, stored_late. apply delete_Permutation in Hq.
        apply (fmap_Permutation (fun x : nat * cache_result => rc_cmd (token_cmd (TkAdd x.2)))) in Hq. rewrite Hq, fmap_cons. by rewrite Hm. }
      exists [XeLate q]. exists (Shared (sh_now S) sv (sh_calls S) (sh_next S) (delete q (sh_late S))), [XoLate n (sh_now S) m], names.
      cbn [sh_run sh_step]. rewrite Hq. unfold token_step. cbn [te_fate te_now te_call]. rewrite <- Hm.
      rewrite (sm_now _ _ _ _ Hs), (sm_server _ _ _ _ Hs), Ev. split; [done|]. split; [done|]. split; [|split].
      * split; cbn; try done; try apply Hs. rewrite Hys in Hdel. apply (Permutation_cons_inv) in Hdel.
        unfold lates. cbn. unfold adds. by rewrite <- Hdel.
      * unfold x_obs, d_obs. cbn [mbind list_bind x_ob d_ob app]. rewrite <- Hm. by repeat constructor.
      * intros g j c' Hx. by apply elem_of_list_singleton in Hx.
    + assert (Hc : forall m, c <> TkAdd m) by (intros m ->; by rewrite Hcmd in Hset).
      exists [XeOther c AnswerLost]. exists (Shared (sh_now S) sv (sh_calls S) (sh_next S) (sh_late S)), [XoOther (sh_now S) c AnswerLost], names.
      cbn [sh_run sh_step]. unfold token_step. cbn [te_fate te_now te_call]. rewrite <- Hcmd.
      rewrite (sm_now _ _ _ _ Hs), (sm_server _ _ _ _ Hs), Ev.
      split; [by destruct c; [destruct (Hc m)| |]|]. split; [done|]. split; [|split].
      * split; cbn; try done; try apply Hs. pose proof (sm_late _ _ _ _ Hs) as Hl. unfold adds in *.
        rewrite Hperm, filter_cons_False in Hl by done. done.
      * unfold x_obs, d_obs. cbn [mbind list_bind x_ob d_ob app exec_obs]. rewrite <- Hcmd. by repeat constructor.
      * intros g j c' Hx. by apply elem_of_list_singleton in Hx.
  - exists ch'. intros S names Hs. assert (Hc : forall m, c <> TkAdd m) by (by destruct c).
    destruct (token_step (dp_server d) (TokenEvent (dp_now d) c f)) as [sv x] eqn:Et.
    assert (Heq : Depl (dp_now d) sv (dp_sys d) (dp_done d) (dp_late d) = d' /\ [DoOther (dp_now d) c f] = o).
    { destruct c; [by destruct (Hc m)| |]; by injection H as <- <-. }
    destruct Heq as [<- <-]. exists [XeOther c f]. eexists (Shared (sh_now S) sv (sh_calls S) (sh_next S) (sh_late S)), [XoOther (sh_now S) c f], names.
    cbn [sh_run sh_step]. rewrite (sm_now _ _ _ _ Hs), (sm_server _ _ _ _ Hs). rewrite Et.
    split; [by destruct c; [destruct (Hc m)| |]|]. split; [done|]. split; [|split].
    + split; cbn; try done; apply Hs.
    + unfold x_obs, d_obs. cbn [mbind list_bind x_ob d_ob]. rewrite !app_nil_r. unfold exec_obs. destruct f; repeat constructor.
    + intros g j c' Hx. by apply elem_of_list_singleton in Hx.
  - injection H as <- <-. exists ch'. intros S names Hs. exists [XeTick t]. eexists _, _, names. cbn [sh_run sh_step].
    split; [reflexivity|]. split; [done|]. split; [|split; [constructor|by intros g j c Hx%elem_of_nil]].
    split; cbn; try apply Hs. by rewrite (sm_now _ _ _ _ Hs).
Qed.
Lemma named_weaken (names names' : namings) xs ys : names ⊆ names' -> Forall2 (named names) xs ys -> Forall2 (named names') xs ys.
Proof.
  intros Hsub HF. apply (Forall2_impl _ _ _ _ HF). intros x y. destruct x, y; cbn; try done; intros [H ->]; (split; [by apply (lookup_weaken names)|done]).
Qed.
Lemma run_sim k ls now es : forall d tr, dp_run k ls (dp_init now) es = Some (d, tr) -> dinv k ls d /\
  forall ch, follow ls ch d (sh_init now) ∅ tr.
Proof.
  induction es as [|e es IH] using rev_ind; intros d tr H.
  - injection H as <- <-. split; [apply dinv_init|]. intros ch. exists [], (sh_init now), [], ∅. split; [done|]. split; [done|].
    split; [|split; [constructor|by intros g j c Hx%elem_of_nil]].
    split; [done|done|..].
    + split; [intros g g' a Hg; by rewrite lookup_empty in Hg|]. intros g. rewrite lookup_empty. split; [cbn; lia|by intros [? ?]].
    + done.
    + intros i. rewrite sys_init. split; cbn.
      * intros n p v Hn. by rewrite lookup_empty in Hn.
      * done.
      * intros g n Hg. by rewrite lookup_empty in Hg.
  - apply dp_run_snoc in H as (d1 & tr1 & o & H1 & H2 & ->). destruct (IH _ _ H1) as [Hd Hs].
    split; [by apply (dinv_step k ls d1 e d o)|]. intros ch'. destruct (step_sim k ls d1 e d o Hd H2 ch') as [ch Hstep].
    destruct (Hs ch) as (es1 & S1 & x1 & n1 & J1 & J2 & J3 & J4 & J5).
    destruct (Hstep S1 n1 J3) as (es2 & S2 & x2 & n2 & K1 & K2 & K3 & K4 & K5).
    exists (es1 ++ es2), S2, (x1 ++ x2), n2. rewrite sh_run_app, J1, K1. split; [done|]. split; [by transitivity n1|]. split; [done|].
    rewrite x_obs_app, d_obs_app. split; [apply Forall2_app; [by apply (named_weaken n1)|done]|].
    intros g j c Hx. apply elem_of_app in Hx as [Hx|Hx]; [|by apply (K5 g j c)].
    destruct (J5 g j c Hx) as [n Hn]. exists n. by apply (lookup_weaken n1).
Qed.
Lemma named_rename (names : namings) xs ys : Forall2 (named names) xs ys ->
  ys = rename (fun g => default (0, 0)%nat (names !! g)) <$> xs.
Proof.
  induction 1 as [|x y xs ys Hxy _ IH]; [done|]. rewrite fmap_cons, <- IH. f_equal.
  destruct x, y; cbn in *; try done; destruct Hxy as [H ->]; by rewrite H.
Qed.
