(** Service bounds for calls on a [System] on Redis. *)
From Coq Require Import ZifyBool ZifyN ZifyNat Lia Sorted.
From Verif Require Import Model.Base Model.MCaptcha Model.HashCache Model.Pow Model.System Model.Master Model.Json Model.Serde Model.Redis
  Model.RedisActor Model.RedisTokens Model.SystemProgram Model.SystemShared Model.RedisSystem
  Spec.RedisActorSpec Spec.ProgramSpec Spec.SharedSpec Spec.RedisSystemSpec Spec.ServiceSpec
  Proofs.RedisActorProofs Proofs.ProgramProofs Proofs.SharedProofs Proofs.RedisSystemProofs.
Local Open Scope nat_scope.

(** Requests before request [m]. *)
Definition before (m : nat) (box : list rreq) : nat := length (List.filter (fun q => rq_id q <? m) box).
(** Steps until request [m] is answered. *)
Definition ahead (a : ractor) (m : nat) : nat :=
  match ra_cur a with
  | Some (m', _, _, _) => if m' =? m then 1 else 1 + 2 * (before m (ra_box a) + 1)
  | None => 2 * (before m (ra_box a) + 1)
  end.
Lemma ahead_pos a m : 1 <= ahead a m.
Proof. unfold ahead. destruct (ra_cur a) as [[[[m' ?] ?] ?]|]; [destruct (m' =? m)|]; lia. Qed.
Lemma before_app m b b' : before m (b ++ b') = before m b + before m b'.
Proof. unfold before. by rewrite List.filter_app, app_length. Qed.
Lemma before_le m b : before m b <= length b.
Proof. unfold before. induction b as [|q b IH]; [done|]. cbn [List.filter length]. destruct (rq_id q <? m); cbn [length]; lia. Qed.
Lemma before_filter m f b : before m (List.filter f b) <= before m b.
Proof.
  unfold before. induction b as [|q b IH]; [done|]. cbn [List.filter]. destruct (f q); cbn [List.filter]; destruct (rq_id q <? m); cbn [length]; lia.
Qed.

(** A step of an actor brings request [m] nearer. *)
Definition turns (e : revent) : bool := match e with ReTake | ReReply _ => true | _ => false end.
Lemma ahead_step k s e s' o m a : inv s -> pending s m a -> ra_step k s e = Some (s', o) -> pending s' m a ->
  ahead s' m + (if turns e then 1 else 0) <= ahead s m.
Proof.
  intros Hi Hp H Hp'. pose proof (pending_lt _ _ _ Hi Hp) as Hlt.
  assert (Hdie : Some (die s) <> Some (s', o)).
  { intros [= <- <-]. destruct Hp' as [Hf|(op & st & _ & Hf)]; [by apply elem_of_nil in Hf|done]. }
  assert (Hgo : forall s1, ra_cur s1 = ra_cur s -> before m (ra_box s1) <= before m (ra_box s) -> ahead s1 m <= ahead s m).
  { intros s1 H1 H2. unfold ahead. rewrite H1. destruct (ra_cur s) as [[[[m' ?] ?] ?]|]; [destruct (m' =? m)|]; lia. }
  destruct e as [b w|n| |r|u op|u r|u]; cbn [turns ra_step] in H |- *.
  - destruct (ra_alive s); injection H as <- <-; rewrite Nat.add_0_r; apply Hgo; try done. cbn [set_box ra_box]. rewrite before_app. unfold before at 2.
    cbn [List.filter rq_id]. destruct (Nat.ltb_spec (ra_next s) m); cbn [length]; lia.
  - rewrite Nat.add_0_r. pose proof (before_filter m (drop_gone n) (ra_box s)) as Hb.
    destruct (ra_cur s) as [[[[x op] st] [|]]|] eqn:Ec; [destruct (x =? n)|..]; injection H as <- <-; try (apply Hgo; done).
    unfold ahead. cbn [set_cur set_box ra_cur ra_box]. rewrite Ec. destruct (x =? m); lia.
  - destruct (ra_alive s); [|done]. destruct (ra_cur s) eqn:Ec; [done|]. destruct (ra_box s) as [|q rest] eqn:Eb; [done|].
    destruct Hp as [Hp|(op & st & _ & Hc)]; [|by rewrite Ec in Hc]. rewrite Eb in Hp.
    destruct Hi as (Hs & _ & _). unfold all_ids in Hs. rewrite Ec, Eb in Hs. cbn [app] in Hs.
    assert (Hq : q = RReq m a true \/ rq_id q < m).
    { apply elem_of_cons in Hp as [<-|Hp]; [by left|right]. rewrite fmap_cons in Hs. apply StronglySorted_inv in Hs as [_ Hs].
      rewrite Forall_forall in Hs. apply Hs. apply elem_of_list_fmap. by exists (RReq m a true). }
    unfold ahead at 2. rewrite Ec, Eb.
    assert (Hb : rq_id q < m -> before m (q :: rest) = S (before m rest)).
    { intros Hl. unfold before. cbn [List.filter]. by rewrite (proj2 (Nat.ltb_lt _ _) Hl). }
    destruct (rq_action q) as [op st|x|] eqn:Eq; [|injection H as <- <-|by destruct Hdie].
    + destruct (borrowed s); [destruct k; [by destruct Hdie|done]|]. injection H as <- <-.
      unfold ahead. cbn [set_cur set_box ra_cur ra_box]. destruct Hq as [->|Hl]; cbn [rq_id].
      * rewrite Nat.eqb_refl. lia.
      * rewrite (proj2 (Nat.eqb_neq (rq_id q) m)) by lia. rewrite Hb by done. lia.
    + unfold ahead. cbn [set_cur set_box ra_cur ra_box]. rewrite Ec. destruct Hq as [->|Hl].
      * exfalso. destruct Hp' as [Hx|(op & st & _ & Hx)]; [|cbn in Hx; congruence]. cbn in Hx.
        by apply (sorted_head _ _ Hs _ Hx).
      * rewrite Hb by done. lia.
  - destruct (ra_cur s) as [[[[x op] st] w]|] eqn:Ec; [|done]. destruct (rc_answer op r) as [y|]; [|by destruct Hdie].
    assert (Hn : s' = set_cur s None) by (destruct w; [|destruct st; [by destruct Hdie|]]; by injection H).
    subst s'. unfold ahead. rewrite Ec. cbn [set_cur set_box ra_cur ra_box]. destruct (Nat.eqb_spec x m) as [->|]; [|lia].
    exfalso. destruct Hp' as [Hx|(op' & st' & _ & Hx)]; [|done]. cbn in Hx.
    destruct Hi as (Hs & _ & _). unfold all_ids in Hs. rewrite Ec in Hs. cbn in Hs. apply StronglySorted_inv in Hs as [_ Hs].
    rewrite Forall_forall in Hs. specialize (Hs m). assert (m < m)%nat; [|lia]. apply Hs. apply elem_of_list_fmap. by exists (RReq m a true).
  - rewrite Nat.add_0_r. destruct (ra_users s !! u); [done|]. destruct (borrowed s); [destruct k; [|done]|]; injection H as <- <-; by apply Hgo.
  - rewrite Nat.add_0_r. destruct (ra_users s !! u); [|done]. destruct (rc_answer _ r); injection H as <- <-; by apply Hgo.
  - rewrite Nat.add_0_r. destruct (ra_users s !! u); [|done]. injection H as <- <-; by apply Hgo.
Qed.

(** Steps a program needs, if actors have at most [b] messages. *)
Fixpoint cost_le (b : nat) (p : prog) (n : nat) : Prop :=
  match p with
  | PRet _ => 1 <= n
  | PVisit _ k => exists n', 1 + 2 * (b + 1) + n' <= n /\ forall a, cost_le b (k a) n'
  | PDraw k => exists n', 1 + n' <= n /\ forall a, cost_le b (k a) n'
  | PCachePoW _ k => exists n', 1 + 2 * (b + 1) + n' <= n /\ forall a, cost_le b (k a) n'
  | PRetrieve _ k => exists n', 1 + 2 * (b + 1) + n' <= n /\ forall a, cost_le b (k a) n'
  | PSubmit _ _ k => exists n', 1 + n' <= n /\ forall a, cost_le b (k a) n'
  | PVerdict _ k => exists n', 1 + n' <= n /\ forall a, cost_le b (k a) n'
  | PCacheResult _ k => exists n', 1 + 2 * (b + 1) + n' <= n /\ forall a, cost_le b (k a) n'
  | PVerify _ k => exists n', 1 + 2 * (b + 1) + n' <= n /\ forall a, cost_le b (k a) n'
  end.
Lemma cost_mono b p n n' : cost_le b p n -> n <= n' -> cost_le b p n'.
Proof. destruct p; cbn; intros H Hle; try lia; destruct H as (x & H1 & H2); exists x; (split; [lia|done]). Qed.
Lemma cost_pos b p n : cost_le b p n -> 1 <= n.
Proof. destruct p; cbn; intros H; try lia; destruct H as (x & H1 & H2); lia. Qed.
Lemma await_cost {A B} b (a : answer A) (wrap : result B -> ret) k n :
  1 <= n -> (forall x, cost_le b (k x) n) -> cost_le b (await a wrap k) n.
Proof. intros H1 H2. destruct a as [| |[x|e]]; cbn; try lia. apply H2. Qed.
Lemma program_cost b salt c : cost_le b (program salt c) (enough c b).
Proof.
  destruct c as [id|w ip|m]; cbn [program enough].
  - exists (1 + (1 + 2 * (b + 1) + 1)). split; [lia|]. intros a.
    assert (Hr : forall r, cost_le b (PRet r) (1 + (1 + 2 * (b + 1) + 1))) by (intros r; cbn; lia).
    destruct a as [| |[[v|]|e]]; try apply Hr. exists (1 + 2 * (b + 1) + 1). split; [lia|]. intros str.
    exists 1. split; [lia|]. intros a. apply await_cost; [lia|]. intros []. cbn. lia.
  - exists (1 + (1 + (1 + (1 + 2 * (b + 1) + 1)))). split; [lia|]. intros a. apply await_cost; [lia|]. intros o.
    destruct o as [c|]; [|cbn; lia]. destruct (decide _) as [He|He]; [|cbn; lia].
    exists (1 + (1 + (1 + 2 * (b + 1) + 1))). split; [lia|]. intros [[[]|e]|]; [|cbn; lia..].
    exists (1 + (1 + 2 * (b + 1) + 1)). split; [lia|]. intros [[|]|]; [|cbn; lia..].
    exists (1 + 2 * (b + 1) + 1). split; [lia|]. intros t. exists 1. split; [lia|]. intros a'. apply await_cost; [lia|]. intros []. cbn. lia.
  - exists 1. split; [lia|]. intros a. apply await_cost; [lia|]. intros x. cbn. lia.
Qed.
Lemma message_cost b p w a n : message p = Some (w, a) -> cost_le b p n ->
  exists n', 1 + 2 * (b + 1) + n' <= n /\ forall t p' e, resume p t = Some (p', e) -> cost_le b p' n'.
Proof.
  intros Hm Hc. destruct p; try discriminate Hm; destruct Hc as (n' & H1 & H2); exists n'; (split; [done|]);
    intros t p' e [= <- _]; apply H2.
Qed.
Lemma respond_cost b l n p x sv p' pe f : message p = None -> respond l 0%N ∅ p x = Some (sv, p', pe, f) -> cost_le b p n ->
  1 <= n /\ cost_le b p' (n - 1).
Proof.
  intros Hm Hr Hc. pose proof (cost_pos _ _ _ Hc). split; [done|].
  destruct p; try discriminate Hm; destruct x; try discriminate Hr; cbn in Hr, Hc.
  - injection Hr as _ <- _ _. destruct Hc as (n' & H1 & H2). apply (cost_mono _ _ n'); [apply H2|lia].
  - injection Hr as _ <- _ _. destruct Hc as (n' & H1 & H2). apply (cost_mono _ _ n'); [apply H2|lia].
  - destruct (verdict_ok _ _ _); [|done]. injection Hr as _ <- _ _. destruct Hc as (n' & H1 & H2). apply (cost_mono _ _ n'); [apply H2|lia].
Qed.

(** What call [n] still needs. *)
Definition owes (b : nat) (s : rsys) (n N : nat) : Prop :=
  match rs_calls s !! n with
  | None => True
  | Some (p, None) => cost_le b p N
  | Some (p, Some (w, m)) => exists n', ahead (actor w s) m + n' <= N /\ forall t p' e, resume p t = Some (p', e) -> cost_le b p' n'
  end.
Lemma owes_mono b s n N N' : owes b s n N -> N <= N' -> owes b s n N'.
Proof.
  unfold owes. destruct (rs_calls s !! n) as [[p [[w m]|]]|]; [| |done].
  - intros (n' & H1 & H2) H. exists n'. split; [lia|done].
  - intros H1 H2. by apply (cost_mono _ _ N).
Qed.

Lemma actor_owes k w e s s' o n p w' m b n' a :
  inv (actor w s) -> unique w (rs_calls s) ->
  (forall n p m, rs_calls s !! n = Some (p, Some (w, m)) -> is_Some (message p)) ->
  actor_step k w e s = Some (s', o) ->
  rs_calls s !! n = Some (p, Some (w', m)) -> pending (actor w' s) m a -> (w' = w -> e <> ReGone m) ->
  (forall t p' ev, resume p t = Some (p', ev) -> cost_le b p' n') ->
  owes b s' n (ahead (actor w' s) m + n' - (if turns e && bool_decide (w' = w) then 1 else 0)).
Proof.
  intros Hi Hu Hm H Hn Hp Hg Hc. unfold actor_step in H. destruct (ra_step k (actor w s) e) as [[x os]|] eqn:Es; [|done].
  destruct (settle_all w (working_on (actor w s)) os (rs_calls s)) as [c out] eqn:Ec. injection H as <- <-.
  destruct (settle_all_spec _ _ _ _ _ _ Hu Ec Hm) as [_ Hcalls]. unfold owes. rewrite calls_own.
  pose proof (ahead_pos (actor w' s) m).
  destruct (Hcalls n) as [(H1 & _ & H3)|(p0 & m0 & o0 & t0 & p0' & e0 & H1 & _ & _ & H4 & H5 & _)].
  - rewrite H1, Hn. exists n'. split; [|done]. case_bool_decide as Hw.
    + subst w'. rewrite actor_own, andb_true_r.
      destruct (pending_step _ _ _ _ _ _ _ Hi Hp Es (Hg eq_refl)) as [Hp'|(ob & t & Ho & Hs)].
      * pose proof (ahead_step _ _ _ _ _ _ _ Hi Hp Es Hp'). destruct (turns e); lia.
      * by destruct (H3 _ _ Hn _ _ Ho Hs).
    + rewrite actor_same by congruence. rewrite andb_false_r. lia.
  - rewrite H5. rewrite Hn in H1. injection H1 as <- -> <-. apply (cost_mono _ _ n'); [by apply (Hc _ _ _ H4)|].
    destruct (turns e && _); lia.
Qed.
Lemma actor_keeps k w e s s' o n p : actor_step k w e s = Some (s', o) -> unique w (rs_calls s) ->
  (forall n p m, rs_calls s !! n = Some (p, Some (w, m)) -> is_Some (message p)) ->
  rs_calls s !! n = Some (p, None) \/ rs_calls s !! n = None -> rs_calls s' !! n = rs_calls s !! n.
Proof.
  intros H Hu Hm Hn. unfold actor_step in H. destruct (ra_step k (actor w s) e) as [[x os]|] eqn:Es; [|done].
  destruct (settle_all w (working_on (actor w s)) os (rs_calls s)) as [c out] eqn:Ec. injection H as <- <-.
  destruct (settle_all_spec _ _ _ _ _ _ Hu Ec Hm) as [_ Hcalls]. rewrite calls_own.
  destruct (Hcalls n) as [(H1 & _)|(p0 & m0 & o0 & t0 & p0' & e0 & H1 & _)]; [done|]. destruct Hn; congruence.
Qed.

Definition asks_within (b n : nat) (s : rsys) (x : rsevent) : Prop :=
  match x with
  | SvAsk m => m = n -> forall p v w a, rs_calls s !! n = Some (p, v) -> message p = Some (w, a) -> load (actor w s) <= b
  | _ => True
  end.
Lemma owes_pos b s n N : owes b s n N -> is_Some (rs_calls s !! n) -> 1 <= N.
Proof.
  unfold owes. intros H [[p v] Hn]. rewrite Hn in H. destruct v as [[w m]|]; [|by apply cost_pos in H].
  destruct H as (n' & H & _). pose proof (ahead_pos (actor w s) m). lia.
Qed.
Lemma owes_step k l tr s x s' o b n N : rinv k l tr s -> (n < rs_next s) -> owes b s n N -> rs_step k l s x = Some (s', o) -> asks_within b n s x ->
  (serves n s x = true -> 1 <= N) /\ owes b s' n (N - (if serves n s x then 1 else 0)).
Proof.
  intros [Hb Hw] Hlt Ho H Hq. pose proof (fun w => ra_inv _ _ _ _ (ri_actor _ _ _ _ Hb w)) as Hi.
  assert (Hmsg : forall w n p m, rs_calls s !! n = Some (p, Some (w, m)) -> is_Some (message p)).
  { intros w n1 p m Hc. destruct (Hw _ _ _ _ Hc) as (a & Ha & _). by exists (w, a). }
  split.
  { intros Hs. destruct (rs_calls s !! n) as [[p v]|] eqn:En; [apply (owes_pos _ _ _ _ Ho); by eexists|exfalso].
    destruct x as [c|n1|w e|n1 x|n1|n1]; cbn [serves rs_step] in Hs, H; try done; try (apply Nat.eqb_eq in Hs as ->; by rewrite En in H).
    rewrite En in Hs. by destruct e. }
  (* a step of an actor, whatever it is, when nobody else's request is touched *)
  assert (Hact : forall w e s1 s2 o2, actor_step k w e s1 = Some (s2, o2) -> (forall w, actor w s1 = actor w s) ->
    rs_calls s1 !! n = rs_calls s !! n -> unique w (rs_calls s1) -> (forall n p m, rs_calls s1 !! n = Some (p, Some (w, m)) -> is_Some (message p)) ->
    (forall p m, rs_calls s !! n = Some (p, Some (w, m)) -> e <> ReGone m) ->
    owes b s2 n (N - (if turns e && match rs_calls s !! n with Some (_, Some (w', _)) => bool_decide (w' = w) | _ => false end then 1 else 0))).
  { intros w e s1 s2 o2 H1 H2 H3 H4 H5 H6. unfold owes in Ho.
    destruct (rs_calls s !! n) as [[p [[w' m]|]]|] eqn:En.
    - destruct Ho as (n' & Ho & Hc). destruct (Hw _ _ _ _ En) as (a & _ & Hp).
      apply (owes_mono _ _ _ (ahead (actor w' s1) m + n' - (if turns e && bool_decide (w' = w) then 1 else 0))); [|rewrite H2; destruct (turns e && _); lia].
      rewrite <- H3 in En. apply (actor_owes k w e s1 s2 o2 n p w' m b n' a); try done.
      + rewrite H2. apply Hi.
      + by rewrite H2.
      + intros ->. apply (H6 p). congruence.
    - rewrite andb_false_r, Nat.sub_0_r. unfold owes. rewrite (actor_keeps k w e s1 s2 o2 n p H1 H4 H5), H3; [done|left; by rewrite H3].
    - unfold owes. rewrite (actor_keeps k w e s1 s2 o2 n (PRet RPanic) H1 H4 H5), H3; [done|right; by rewrite H3]. }
  assert (Hsame : forall s1, rs_calls s1 !! n = rs_calls s !! n -> (forall w, actor w s1 = actor w s) -> owes b s1 n (N - 0)).
  { intros s1 H1 H2. rewrite Nat.sub_0_r. unfold owes in *. rewrite H1. destruct (rs_calls s !! n) as [[p [[w m]|]]|]; [|done..]. by rewrite H2. }
  destruct x as [c|n1|w e|n1 x|n1|n1]; cbn [serves rs_step] in *.
  - injection H as <- <-. apply Hsame; [cbn; by rewrite lookup_insert_ne by lia|by intros []].
  - destruct (rs_calls s !! n1) as [[p [v|]]|] eqn:En1; try done. destruct (message p) as [[w a]|] eqn:Em; [|done].
    assert (Hun : unique w (<[n1:=(p, Some (w, ra_next (actor w s)))]> (rs_calls s))).
    { assert (Hold : forall x y m, rs_calls s !! x = Some (y, Some (w, m)) -> m <> ra_next (actor w s)).
      { intros x0 y0 m Hx. destruct (Hw _ _ _ _ Hx) as (b0 & _ & Hp). pose proof (pending_lt _ _ _ (Hi w) Hp). lia. }
      intros x x' y y' m H1 H2.
      apply lookup_insert_Some in H1 as [[<- H1]|[N1 H1]]; apply lookup_insert_Some in H2 as [[<- H2]|[N2 H2]]; try done.
      - injection H1 as <- <-. by destruct (Hold _ _ _ H2).
      - injection H2 as <- <-. by destruct (Hold _ _ _ H1).
      - by apply (ri_once _ _ _ _ Hb w x x' y y' m). }
    assert (Hmg : forall n2 p2 m2, <[n1:=(p, Some (w, ra_next (actor w s)))]> (rs_calls s) !! n2 = Some (p2, Some (w, m2)) -> is_Some (message p2)).
    { intros n2 p2 m2 Hc. apply lookup_insert_Some in Hc as [[_ Hc]|[_ Hc]]; [injection Hc as <- _; rewrite Em; by eexists|by apply (Hmsg w n2 p2 m2)]. }
    destruct (Nat.eqb_spec n1 n) as [->|Hne].
    + specialize (Hq eq_refl _ _ _ _ En1 Em). unfold owes in Ho. rewrite En1 in Ho.
      destruct (message_cost _ _ _ _ _ Em Ho) as (n' & Hle & Hc).
      unfold actor_step in H. rewrite actor_calls in H. cbn [set_calls rs_calls] in H.
      destruct (ra_step k (actor w s) (ReSend a true)) as [[x os]|] eqn:Es; [|done].
      destruct (settle_all w (working_on (actor w s)) os _) as [c out] eqn:Ec. injection H as <- <-.
      destruct (settle_all_spec _ _ _ _ _ _ Hun Ec Hmg) as [_ Hcalls]. unfold owes. rewrite calls_own.
      destruct (Hcalls n) as [(H1 & _)|(p0 & m0 & o0 & t0 & p0' & e0 & H1 & _ & _ & H4 & H5 & _)].
      * rewrite H1, lookup_insert. exists n'. split; [|done].
        match goal with |- ahead (actor w ?y) _ + _ <= _ => replace (actor w y) with x by (by destruct w) end.
        enough (ahead x (ra_next (actor w s)) <= 2 * (b + 1)) by lia. cbn [ra_step] in Es. unfold load in Hq.
        set (a0 := actor w s) in *. assert (Hcur : ra_cur x = ra_cur a0 /\ before (ra_next a0) (ra_box x) <= length (ra_box a0)).
        { destruct (ra_alive a0); injection Es as <- <-; cbn [set_box ra_cur ra_box]; (split; [done|]); [|apply before_le].
          rewrite before_app. pose proof (before_le (ra_next a0) (ra_box a0)). unfold before at 2. cbn [List.filter rq_id].
          rewrite Nat.ltb_irrefl. cbn [length]. lia. }
        destruct Hcur as [Hc1 Hc2]. unfold ahead. rewrite Hc1. destruct (ra_cur a0) as [[[[m' ?] ?] ?]|]; [destruct (m' =? _)|]; lia.
      * rewrite H5. rewrite lookup_insert in H1. injection H1 as <- _. apply (cost_mono _ _ n'); [by apply (Hc _ _ _ H4)|lia].
    + specialize (Hact w (ReSend a true) _ _ _ H). cbn [turns andb set_calls rs_calls] in Hact.
      rewrite lookup_insert_ne in Hact by done. apply Hact; try done.
  - assert (Hgen : forall e', (forall p m, rs_calls s !! n = Some (p, Some (w, m)) -> e' <> ReGone m) ->
      actor_step k w e' s = Some (s', o) -> owes b s' n (N - (if turns e' && match rs_calls s !! n with Some (_, Some (w', _)) => bool_decide (w' = w) | _ => false end then 1 else 0))).
    { intros e' Hg Hs. apply (Hact w e' s s' o); try done; [apply (ri_once _ _ _ _ Hb)|apply Hmsg]. }
    destruct e as [a c|m| |r|u op|u r|u]; cycle 1;
      [|match type of H with actor_step k w ?e s = _ => apply (Hgen e); [by intros|done] end..].
    destruct (waiter w m (rs_calls s)) eqn:Ew; [done|]. apply (Hgen (ReGone m)); [|done].
    intros p m' Hc [= ->]. by apply (waiter_none _ _ _ n p Ew).
  - destruct (rs_calls s !! n1) as [[p [v|]]|] eqn:En1; try done. destruct (message p) as [[w a]|] eqn:Em; [done|].
    destruct (respond l 0 ∅ p x) as [[[[sv p'] pe] f]|] eqn:Er; [|done]. injection H as <- <-.
    destruct (Nat.eqb_spec n1 n) as [->|Hne].
    + unfold owes in *. rewrite En1 in Ho. cbn [set_calls rs_calls]. rewrite lookup_insert.
      by destruct (respond_cost b l N p x sv p' pe f Em Er Ho).
    + apply Hsame; [cbn; by rewrite lookup_insert_ne|intros w; apply actor_calls].
  - destruct (rs_calls s !! n1) as [[p v]|] eqn:En1; [|done]. destruct p; try discriminate. destruct v; [done|].
    injection H as <- <-. destruct (Nat.eqb_spec n1 n) as [->|Hne].
    + unfold owes. cbn [set_calls rs_calls]. by rewrite lookup_delete.
    + apply Hsame; [cbn; by rewrite lookup_delete_ne|intros w; apply actor_calls].
  - destruct (rs_calls s !! n1) as [[p [[w m]|]]|] eqn:En1; [| |done].
    + destruct (actor_step _ _ _ _) as [[s1 o1]|] eqn:Es; [|done]. injection H as <- <-.
      assert (Hun : unique w (delete n1 (rs_calls s))).
      { intros x x' y y' m' H1 H2. apply lookup_delete_Some in H1 as [_ H1]. apply lookup_delete_Some in H2 as [_ H2].
        by apply (ri_once _ _ _ _ Hb w x x' y y' m'). }
      assert (Hmg : forall n2 p2 m2, delete n1 (rs_calls s) !! n2 = Some (p2, Some (w, m2)) -> is_Some (message p2)).
      { intros n2 p2 m2 Hc. apply lookup_delete_Some in Hc as [_ Hc]. by apply (Hmsg w n2 p2 m2). }
      destruct (decide (n1 = n)) as [->|Hne].
      * unfold owes. rewrite (actor_keeps k w _ _ _ _ n (PRet RPanic) Es Hun Hmg); cbn [set_calls rs_calls]; [by rewrite lookup_delete|right; by rewrite lookup_delete].
      * specialize (Hact w (ReGone m) _ _ _ Es). cbn [turns andb set_calls rs_calls] in Hact.
        rewrite lookup_delete_ne in Hact by done. apply Hact; try done.
        intros p' m' Hc [= ->]. by apply Hne, (ri_once _ _ _ _ Hb w n1 n p p' m').
    + injection H as <- <-. destruct (decide (n1 = n)) as [->|Hne].
      * unfold owes. cbn [set_calls rs_calls]. by rewrite lookup_delete.
      * apply Hsame; [cbn; by rewrite lookup_delete_ne|intros w; apply actor_calls].
Qed.

Lemma next_step k l s x s' o : rs_step k l s x = Some (s', o) -> rs_next s <= rs_next s'.
Proof. intros H. by destruct (step_shape _ _ _ _ _ _ H) as (_ & _ & Hn). Qed.
Lemma owes_run k l b n es : forall tr s N s' o, rinv k l tr s -> (n < rs_next s) -> owes b s n N -> rs_run k l s es = Some (s', o) ->
  at_most k l b n s es -> served k l n s es <= N /\ owes b s' n (N - served k l n s es).
Proof.
  induction es as [|x es IH]; intros tr s N s' o Hi Hlt Ho H Hm; cbn [rs_run served at_most] in *.
  { injection H as <- <-. rewrite Nat.sub_0_r. split; [lia|done]. }
  destruct (rs_step k l s x) as [[s1 o1]|] eqn:E; [|done]. destruct (rs_run k l s1 es) as [[s2 o2]|] eqn:E2; [|done].
  injection H as <- <-. destruct Hm as [Hq Hm]. destruct (owes_step k l tr s x s1 o1 b n N Hi Hlt Ho E) as [H1 H2]; [by destruct x|].
  pose proof (next_step _ _ _ _ _ _ E) as Hn. destruct (rinv_step _ _ _ _ _ _ _ Hi E) as [Hi1 _].
  destruct (IH _ _ _ _ _ Hi1 ltac:(lia) H2 E2 Hm) as [H3 H4]. destruct (serves n s x).
  - specialize (H1 eq_refl). split; [lia|]. apply (owes_mono _ _ _ _ _ H4). lia.
  - split; [lia|]. apply (owes_mono _ _ _ _ _ H4). lia.
Qed.

(** From any state. *)
Lemma step_cost b p e p' n : p_step p e = Some p' -> cost_le b p n -> cost_le b p' n.
Proof.
  intros H Hc. destruct p, e; try discriminate H; cbn in H, Hc; try case_decide; try discriminate H; injection H as <-;
    destruct Hc as (n' & H1 & H2); (apply (cost_mono _ _ n'); [apply H2|lia]).
Qed.
Lemma run_cost b es : forall p p' n, p_run p es = Some p' -> cost_le b p n -> cost_le b p' n.
Proof.
  induction es as [|e es IH]; intros p p' n H Hc; cbn in H; [by injection H as <-|].
  destruct (p_step p e) as [p1|] eqn:E; [|done]. apply (IH p1 p' n H). by apply (step_cost b p e).
Qed.
Lemma ahead_load s m a : inv s -> pending s m a -> ahead s m <= 2 * load s.
Proof.
  intros (Hs & _) Hp. unfold ahead, load. destruct (ra_cur s) as [[[[m' op] st] w]|] eqn:Ec.
  - destruct (Nat.eqb_spec m' m); [lia|]. destruct Hp as [Hp|(op' & st' & _ & Hp)]; [|congruence].
    assert (before m (ra_box s) < length (ra_box s)); [|lia].
    clear -Hp. unfold before. induction (ra_box s) as [|q b IH]; [by apply elem_of_nil in Hp|]. cbn [List.filter length].
    pose proof (before_le m b) as Hb. unfold before in Hb.
    apply elem_of_cons in Hp as [<-|Hp]; [|destruct (rq_id q <? m); cbn [length]; specialize (IH Hp); lia].
    cbn [rq_id]. rewrite Nat.ltb_irrefl. lia.
  - destruct Hp as [Hp|(op' & st' & _ & Hp)]; [|congruence].
    assert (before m (ra_box s) < length (ra_box s)); [|lia].
    clear -Hp. unfold before. induction (ra_box s) as [|q b IH]; [by apply elem_of_nil in Hp|]. cbn [List.filter length].
    pose proof (before_le m b) as Hb. unfold before in Hb.
    apply elem_of_cons in Hp as [<-|Hp]; [|destruct (rq_id q <? m); cbn [length]; specialize (IH Hp); lia].
    cbn [rq_id]. rewrite Nat.ltb_irrefl. lia.
Qed.

Lemma calls_once k l es s tr n : rs_run k l rs_init es = Some (s, tr) ->
  (forall c, SvoCall n c ∈ tr -> n < rs_next s) /\ forall c c', SvoCall n c ∈ tr -> SvoCall n c' ∈ tr -> c = c'.
Proof.
  revert s tr. induction es as [|e es IH] using rev_ind; intros s tr H; [injection H as <- <-; split; [intros c Hc|intros c c' Hc]; by apply elem_of_nil in Hc|].
  apply rs_run_snoc in H as (s1 & tr1 & o & H1 & H2 & ->). destruct (step_shape _ _ _ _ _ _ H2) as (_ & Hnew & Hle).
  destruct (IH _ _ H1) as [IH1 IH2].
  assert (Hlt : forall c, SvoCall n c ∈ o -> n < rs_next s).
  { intros c Hc. pose proof (proj2 (step_present _ _ _ _ _ _ n H2) c Hc) as [[p v] Hs].
    assert (Hrun : rs_run k l rs_init (es ++ [e]) = Some (s, tr1 ++ o)).
    { rewrite rs_run_app, H1. cbn [rs_run]. rewrite H2. by rewrite app_nil_r. }
    by destruct (ri_call _ _ _ _ (proj1 (run_rinv _ _ _ _ _ Hrun)) _ _ _ Hs) as [Hl _]. }
  split.
  - intros c Hc. apply elem_of_app in Hc as [Hc|Hc]; [specialize (IH1 _ Hc); lia|by apply (Hlt c)].
  - intros c c' Hc Hc'. apply elem_of_app in Hc as [Hc|Hc]; apply elem_of_app in Hc' as [Hc'|Hc'].
    + by apply IH2.
    + destruct (Hnew _ _ Hc') as [-> _]. specialize (IH1 _ Hc). lia.
    + destruct (Hnew _ _ Hc) as [-> _]. specialize (IH1 _ Hc'). lia.
    + destruct (Hnew _ _ Hc) as [_ ->]. apply elem_of_list_singleton in Hc'. by injection Hc' as ->.
Qed.
Lemma owes_reachable k l es s tr n c b : rs_run k l rs_init es = Some (s, tr) -> SvoCall n c ∈ tr ->
  (forall p w m, rs_calls s !! n = Some (p, Some (w, m)) -> load (actor w s) <= b) ->
  n < rs_next s /\ owes b s n (enough c b).
Proof.
  intros Hr Hc Hl. destruct (calls_once _ _ _ _ _ n Hr) as [H1 H2]. split; [by apply (H1 c)|]. destruct (run_rinv _ _ _ _ _ Hr) as [Hb Hw].
  unfold owes. destruct (rs_calls s !! n) as [[p v]|] eqn:En; [|done]. destruct (ri_call _ _ _ _ Hb _ _ _ En) as (_ & c' & Hc' & Hp).
  rewrite (H2 _ _ Hc Hc'). pose proof (run_cost b _ _ _ _ Hp (program_cost b (pl_salt l) c')) as Hcost.
  destruct v as [[w m]|]; [|done]. destruct (Hw _ _ _ _ En) as (a & Hm & Hpd). destruct (message_cost _ _ _ _ _ Hm Hcost) as (n' & Hle & Hrest).
  exists n'. split; [|done]. pose proof (ahead_load _ _ _ (ra_inv _ _ _ _ (ri_actor _ _ _ _ Hb w)) Hpd). specialize (Hl _ _ _ eq_refl). lia.
Qed.

(** ** Attending to one call *)
Definition load_ok (b : nat) (s : rsys) (n : nat) : Prop :=
  forall w, load (actor w s) <= b + match rs_calls s !! n with Some (_, Some (w', _)) => if decide (w' = w) then 1 else 0 | _ => 0 end.
Definition free (k : conn) (s : rsys) : Prop := k = Single \/ forall w, ra_users (actor w s) = ∅.
Lemma serves_next W n s : is_Some (rs_calls s !! n) -> serves n s (next_for W n s) = true.
Proof.
  intros [[p v] Hn]. unfold next_for. rewrite Hn. destruct v as [[w m]|].
  - destruct (ra_cur (actor w s)); unfold serves; rewrite Hn; by apply bool_decide_eq_true_2.
  - destruct p; cbn [serves]; apply Nat.eqb_refl.
Qed.
Lemma next_enabled k l tr s W n : rinv k l tr s -> is_Some (rs_calls s !! n) -> free k s -> (forall s q, verdict_ok l q (wo_verdict W s q) = true) ->
  is_Some (rs_step k l s (next_for W n s)).
Proof.
  intros [Hb Hw] [[p v] Hn] Hf Hv. unfold next_for. rewrite Hn. destruct v as [[w m]|].
  - destruct (Hw _ _ _ _ Hn) as (a & Hm & Hp). pose proof (ri_actor _ _ _ _ Hb w) as Ha.
    destruct (ra_cur (actor w s)) as [[[[m' op] st] b]|] eqn:Ecur; cbn [rs_step]; apply actor_enabled; cbn [ra_step]; rewrite Ecur.
    + destruct (rc_answer op _); [|by eexists]. destruct b; [by eexists|]. destruct st; by eexists.
    + destruct Hp as [Hp|(op & st & _ & Hp)]; [|congruence].
      destruct (ra_box (actor w s)) as [|q rest] eqn:Ebox; [by apply elem_of_nil in Hp|].
      destruct (alive_died _ _ _ _ Ha) as [[Hal _]|(_ & _ & _ & Hx)]; [|congruence]. rewrite Hal.
      destruct (rq_action q); [|by eexists|by eexists].
      assert (Hbr : k = Single \/ borrowed (actor w s) = false).
      { destruct Hf as [Hf|Hf]; [by left|right]. unfold borrowed. rewrite Ecur, Hf. apply bool_decide_eq_false_2. intros Hne. by apply Hne. }
      destruct Hbr as [->|Hbr]; [destruct (borrowed _); by eexists|rewrite Hbr; by eexists].
  - destruct p as [r|id kk|kk|mm kk|mm kk|ip q kk|q kk|mm kk|mm kk]; cbn [rs_step]; rewrite Hn; cbn [message master_action respond];
      try (apply actor_enabled; cbn [ra_step]; destruct (ra_alive _)); try by eexists.
    rewrite Hv. by eexists.
Qed.
(** What a step of an actor does to its load and its users. *)
Lemma turn_load k a e a' os : ra_step k a e = Some (a', os) -> turns e = true ->
  ra_users a' = ra_users a /\ (load a' < load a \/ (load a' <= load a /\ exists n cmd, os = [ObCommand n cmd])).
Proof.
  intros H He. unfold load. destruct e as [b w|n| |r|u op|u r|u]; try done; cbn [ra_step] in H.
  - destruct (ra_alive a); [|done]. destruct (ra_cur a) eqn:Ec; [done|]. destruct (ra_box a) as [|q rest] eqn:Eb; [done|].
    destruct (rq_action q) as [op st|x|].
    + destruct (borrowed a); [destruct k; [|done]|]; injection H as <- <-.
      * split; [done|]. left. cbn. lia.
      * split; [done|]. right. cbn. split; [lia|]. by eexists _, _.
    + injection H as <- <-. split; [done|]. left. cbn. rewrite Ec. lia.
    + injection H as <- <-. split; [done|]. left. cbn. lia.
  - destruct (ra_cur a) as [[[[x op] st] w]|] eqn:Ec; [|done].
    destruct (rc_answer op r) as [y|]; [destruct w; [|destruct st]|]; injection H as <- <-; (split; [done|]); left; cbn; lia.
Qed.
Lemma send_load k a x a' os : ra_step k a (ReSend x true) = Some (a', os) ->
  ra_users a' = ra_users a /\ (load a' = S (load a) /\ os = [] \/ load a' = load a /\ os = [ObFail (ra_next a)]).
Proof.
  cbn [ra_step]. unfold load. destruct (ra_alive a); intros [= <- <-]; (split; [done|]); cbn; [left|by right].
  rewrite app_length. cbn. split; [lia|done].
Qed.
Lemma load_step k l tr s s' o W n b : rinv k l tr s -> is_Some (rs_calls s !! n) -> load_ok b s n -> free k s ->
  rs_step k l s (next_for W n s) = Some (s', o) -> load_ok b s' n /\ free k s'.
Proof.
  intros [Hb Hw] [[p v] Hn] Hl Hf H. unfold load_ok in Hl. rewrite Hn in Hl.
  assert (Hmsg : forall w n p m, rs_calls s !! n = Some (p, Some (w, m)) -> is_Some (message p)).
  { intros w n1 p1 m Hc. destruct (Hw _ _ _ _ Hc) as (a & Ha & _). by exists (w, a). }
  unfold next_for in H. rewrite Hn in H. destruct v as [[w m]|].
  - set (e := match ra_cur (actor w s) with Some _ => ReReply (wo_reply W s) | None => ReTake end) in *.
    assert (He : turns e = true) by (unfold e; by destruct (ra_cur (actor w s))).
    assert (Hs : actor_step k w e s = Some (s', o)) by (unfold e in *; by destruct (ra_cur (actor w s))). clear H.
    unfold actor_step in Hs. destruct (ra_step k (actor w s) e) as [[a os]|] eqn:Es; [|done].
    destruct (settle_all w (working_on (actor w s)) os (rs_calls s)) as [c out] eqn:Ec. injection Hs as <- <-.
    destruct (turn_load _ _ _ _ _ Es He) as [Hu Ht].
    destruct (settle_all_spec _ _ _ _ _ _ (ri_once _ _ _ _ Hb w) Ec (Hmsg w)) as [_ Hcalls]. split.
    + intros w'. rewrite calls_own.
      assert (Hn' : c !! n = Some (p, Some (w, m)) \/ (load a < load (actor w s) /\ exists p', c !! n = Some (p', None))).
      { destruct (Hcalls n) as [(H1 & _)|(p0 & m0 & o0 & t0 & p0' & e0 & _ & H2 & H3 & _ & H5 & _)]; [left; congruence|right].
        split; [|by exists p0']. destruct Ht as [?|(_ & n0 & cmd & ->)]; [done|]. apply elem_of_list_singleton in H2. by subst o0. }
      specialize (Hl w'). destruct (decide (w' = w)) as [->|Hne].
      * rewrite actor_own. rewrite decide_True in Hl by done.
        destruct Hn' as [->|[Hlt (p' & ->)]]; [rewrite decide_True by done|]; destruct Ht as [?|[? _]]; lia.
      * rewrite actor_same by done. rewrite decide_False in Hl by congruence. destruct Hn' as [->|[_ (p' & ->)]]; [rewrite decide_False by congruence|]; lia.
    + destruct Hf as [Hf|Hf]; [by left|right]. intros w'. destruct (decide (w' = w)) as [->|Hne]; [rewrite actor_own, Hu; apply Hf|by rewrite actor_same].
  - assert (Hkeep : forall s1, (forall w, actor w s1 = actor w s) -> (rs_calls s1 !! n = None \/ exists p1, rs_calls s1 !! n = Some (p1, None)) ->
      load_ok b s1 n /\ free k s1).
    { intros s1 H1 H2. split.
      - intros w. rewrite H1. specialize (Hl w). destruct H2 as [->|[p1 ->]]; lia.
      - destruct Hf as [Hf|Hf]; [by left|right]. intros w. by rewrite H1. }
    assert (Hask : rs_step k l s (SvAsk n) = Some (s', o) -> load_ok b s' n /\ free k s').
    { clear H. intros H. cbn [rs_step] in H. rewrite Hn in H. destruct (message p) as [[w a]|] eqn:Em; [|done].
      unfold actor_step in H. rewrite actor_calls in H. cbn [set_calls rs_calls] in H.
      destruct (ra_step k (actor w s) (ReSend a true)) as [[x os]|] eqn:Es; [|done].
      destruct (settle_all w (working_on (actor w s)) os _) as [c out] eqn:Ec. injection H as <- <-.
      destruct (send_load _ _ _ _ _ Es) as [Hu Ht].
      assert (Hun : unique w (<[n:=(p, Some (w, ra_next (actor w s)))]> (rs_calls s))).
      { assert (Hold : forall x y m, rs_calls s !! x = Some (y, Some (w, m)) -> m <> ra_next (actor w s)).
        { intros x0 y0 m Hx. destruct (Hw _ _ _ _ Hx) as (b0 & _ & Hp). pose proof (pending_lt _ _ _ (ra_inv _ _ _ _ (ri_actor _ _ _ _ Hb w)) Hp). lia. }
        intros x0 x' y y' m H1 H2.
        apply lookup_insert_Some in H1 as [[<- H1]|[N1 H1]]; apply lookup_insert_Some in H2 as [[<- H2]|[N2 H2]]; try done.
        - injection H1 as <- <-. by destruct (Hold _ _ _ H2).
        - injection H2 as <- <-. by destruct (Hold _ _ _ H1).
        - by apply (ri_once _ _ _ _ Hb w x0 x' y y' m). }
      assert (Hmg : forall n2 p2 m2, <[n:=(p, Some (w, ra_next (actor w s)))]> (rs_calls s) !! n2 = Some (p2, Some (w, m2)) -> is_Some (message p2)).
      { intros n2 p2 m2 Hc. apply lookup_insert_Some in Hc as [[_ Hc]|[_ Hc]]; [injection Hc as <- _; rewrite Em; by eexists|by apply (Hmsg w n2 p2 m2)]. }
      destruct (settle_all_spec _ _ _ _ _ _ Hun Ec Hmg) as [_ Hcalls].
      assert (Hother : forall w', w' <> w -> actor w' (set_calls c (set_actor w x (set_calls (<[n:=(p, Some (w, ra_next (actor w s)))]> (rs_calls s)) s))) = actor w' s)
        by (intros w' Hne; by destruct w, w').
      split.
      - intros w'. rewrite calls_own. specialize (Hl w').
        assert (Hn' : (c !! n = Some (p, Some (w, ra_next (actor w s))) /\ load x <= S (load (actor w s))) \/
          (load x = load (actor w s) /\ exists p', c !! n = Some (p', None))).
        { destruct (Hcalls n) as [(H1 & _ & H3)|(p0 & m0 & o0 & t0 & p0' & e0 & H1 & H2 & H3 & _ & H5 & _)].
          - left. rewrite H1, lookup_insert. split; [done|]. destruct Ht as [[-> _]|[-> _]]; lia.
          - right. destruct Ht as [[_ ->]|[Ht _]]; [by apply elem_of_nil in H2|]. split; [done|by exists p0']. }
        destruct (decide (w' = w)) as [->|Hne].
        + rewrite actor_own. destruct Hn' as [[-> Hn']|[Hn' [p' ->]]]; [rewrite decide_True by done|]; lia.
        + rewrite (Hother _ Hne). destruct Hn' as [[-> _]|[_ [p' ->]]]; [rewrite decide_False by congruence|]; lia.
      - destruct Hf as [Hf|Hf]; [by left|right]. intros w'. destruct (decide (w' = w)) as [->|Hne]; [rewrite actor_own, Hu; apply Hf|by rewrite (Hother _ Hne)]. }
    destruct p as [r|id kk|kk|mm kk|mm kk|ip q kk|q kk|mm kk|mm kk]; try (by apply Hask); cbn [rs_step] in H; rewrite Hn in H; cbn [message respond] in H.
    + injection H as <- <-. apply Hkeep; [intros w; apply actor_calls|left; cbn; by rewrite lookup_delete].
    + injection H as <- <-. apply Hkeep; [intros w; apply actor_calls|right; eexists; cbn; by rewrite lookup_insert].
    + injection H as <- <-. apply Hkeep; [intros w; apply actor_calls|right; eexists; cbn; by rewrite lookup_insert].
    + destruct (verdict_ok _ _ _); [|done]. injection H as <- <-. apply Hkeep; [intros w; apply actor_calls|right; eexists; cbn; by rewrite lookup_insert].
Qed.
Lemma attend_returns k l W n b (Hv : forall s q, verdict_ok l q (wo_verdict W s q) = true) N : forall tr s,
  rinv k l tr s -> n < rs_next s -> is_Some (rs_calls s !! n) -> owes b s n N -> load_ok b s n -> free k s ->
  exists r, SvoRet n r ∈ attend k l W n N s.
Proof.
  induction N as [|N IH]; intros tr s Hi Hlt Hn Ho Hl Hf.
  { pose proof (owes_pos _ _ _ _ Ho Hn). lia. }
  cbn [attend]. destruct (next_enabled k l tr s W n Hi Hn Hf Hv) as [[s' o] E]. rewrite E.
  assert (Hask : asks_within b n s (next_for W n s)).
  { unfold next_for. destruct Hn as [[p v] Hn]. unfold load_ok in Hl. rewrite Hn in Hl |- *. destruct v as [[w m]|]; [by destruct (ra_cur _)|].
    assert (Ha : asks_within b n s (SvAsk n)) by (intros _ p' v' w a _ _; specialize (Hl w); lia). by destruct p. }
  destruct (owes_step _ _ _ _ _ _ _ _ _ _ Hi Hlt Ho E Hask) as [_ Ho']. rewrite serves_next in Ho' by done. cbn [Nat.sub] in Ho'. rewrite Nat.sub_0_r in Ho'.
  destruct (load_step _ _ _ _ _ _ _ _ _ Hi Hn Hl Hf E) as [Hl' Hf']. destruct (rinv_step _ _ _ _ _ _ _ Hi E) as [Hi' _].
  pose proof (next_step _ _ _ _ _ _ E) as Hle.
  destruct (proj1 (step_present _ _ _ _ _ _ n E) Hn) as [Hs|[Hs|[r Hs]]].
  - destruct (IH _ _ Hi' ltac:(lia) Hs Ho' Hl' Hf') as [r Hr]. exists r. apply elem_of_app. by right.
  - exfalso. clear -E Hs Hn. unfold next_for in E. destruct Hn as [[p v] Hn]. rewrite Hn in E.
    assert (Hact : forall w e s1 s2 o2, actor_step k w e s1 = Some (s2, o2) -> SvoCancel n ∉ o2).
    { intros w e s1 s2 o2 Ha Hx. apply actor_step_out in Ha as (os & out & -> & Hout & _). apply elem_of_cons in Hx as [Hx|Hx]; [done|].
      by apply Hout in Hx as (? & ? & ?). }
    destruct v as [[w m]|].
    + destruct (ra_cur _); cbn [rs_step] in E; by apply (Hact _ _ _ _ _ E).
    + destruct p as [r|id kk|kk|mm kk|mm kk|ip q kk|q kk|mm kk|mm kk]; cbn [rs_step] in E; rewrite Hn in E; cbn [message master_action respond] in E;
        try (by apply (Hact _ _ _ _ _ E)).
      * injection E as <- <-. by apply elem_of_list_singleton in Hs.
      * injection E as <- <-. by apply elem_of_list_singleton in Hs.
      * injection E as <- <-. by apply elem_of_list_singleton in Hs.
      * destruct (verdict_ok _ _ _); [|done]. injection E as <- <-. by apply elem_of_list_singleton in Hs.
  - exists r. apply elem_of_app. by left.
Qed.
