(** Proofs of the theorems of Properties/RedisActorProperties.v. *)
From Coq Require Import Sorted.
From Coq Require Import ZifyBool ZifyN ZifyNat Lia.
From Verif Require Import Model.Base Model.Defense Model.MCaptcha Model.HashCache Model.Master Model.Json Model.Serde
  Model.Redis Model.RedisActor Model.RedisTokens Spec.RedisSpec Spec.RedisActorSpec Proofs.RedisProofs
  Proofs.RedisActorProofs.

Lemma cache_uses m : uses_redis m -> exists op, cache_action m = AcCommand op true.
Proof. destruct m; cbn; intros H; try done; by eexists. Qed.

Lemma died_dead k s : dead_for_good k (fst (die s)).
Proof. intros es s' o H. by destruct (dead_run k (fst (die s)) es s' o eq_refl eq_refl eq_refl H) as (_ & H1 & H2). Qed.

Lemma run_one k s e : ra_run k s [e] = match ra_step k s e with Some (s1, o1) => Some (s1, o1 ++ []) | None => None end.
Proof. cbn [ra_run]. by destruct (ra_step k s e) as [[s1 o1]|]. Qed.

Lemma take_command k n op st w :
  ra_run k (RActor true [] None ∅ n) [ReSend (AcCommand op st) w; ReTake] =
    Some (RActor true [] (Some (n, op, st, w)) ∅ (S n), [ObCommand n (rc_cmd op)]).
Proof.
  assert (Hb : bool_decide ((∅ : gmap nat rcmd) <> ∅) = false) by (apply bool_decide_eq_false_2; intros H; by apply H).
  cbn [ra_run ra_step ra_alive ra_next ra_box ra_cur ra_users set_box rq_action app borrowed]. by rewrite Hb.
Qed.

Lemma c69_gone_caller_refuted : forall k s m r,
  idle s -> uses_redis m ->
  (** the request is sent without waiting for an answer: it is carried out, the
      reply arrives, and the cache is gone *)
  (exists s' o cmd, ra_run k s [ReSend (cache_action m) false; ReTake; ReReply r] = Some (s', o) /\
     o = [ObCommand (ra_next s) cmd; ObDied] /\ dead_for_good k s') /\
  (** or its sender gives up while Redis is being asked, and other clients' requests fail with it *)
  (forall others, exists s' o,
     ra_run k s ([ReSend (cache_action m) true; ReTake] ++ ((fun a => ReSend (cache_action a) true) <$> others) ++
                 [ReGone (ra_next s); ReReply r]) = Some (s', o) /\
     died o /\ r_failed o = seq (S (ra_next s)) (length others) /\ dead_for_good k s').
Proof.
  intros k s m r (Ha & Hc & Hb & Hu) Hm. destruct (cache_uses m Hm) as [op ->].
  destruct s as [al bx cu us nx]. cbn [ra_alive ra_cur ra_box ra_users ra_next] in *. subst al bx cu us.
  split.
  - change [ReSend (AcCommand op true) false; ReTake; ReReply r]
      with ([ReSend (AcCommand op true) false; ReTake] ++ [ReReply r]).
    rewrite ra_run_app, take_command, run_one. cbn [ra_step ra_cur].
    destruct (rc_answer op r) as [x|]; eexists _, _, _; (split; [reflexivity|]); split; try reflexivity;
      apply (died_dead k (RActor true [] (Some (nx, op, true, false)) ∅ (S nx))).
  - intros others. cbn [app fmap list_fmap]. 
    assert (Hsend : forall l (b : list rreq) n, n = (nx + 1 + length b)%nat ->
      ra_run k (RActor true b (Some (nx, op, true, true)) ∅ n) ((fun a => ReSend (cache_action a) true) <$> l) =
        Some (RActor true (b ++ imap (fun i a => RReq (n + i) (cache_action a) true) l) (Some (nx, op, true, true)) ∅
          (n + length l)%nat, [])).
    { induction l as [|a l IH]; intros b n Hn.
      - cbn. by rewrite app_nil_r, Nat.add_0_r.
      - rewrite fmap_cons. cbn [ra_run ra_step ra_alive ra_next ra_box ra_cur ra_users set_box].
        unfold set_box. cbn [ra_alive ra_cur ra_users ra_next]. rewrite IH by (rewrite app_length; cbn; lia). cbn [app]. do 3 f_equal; [|cbn; lia].
        rewrite <- app_assoc. f_equal. cbn [imap]. cbn [app]. rewrite Nat.add_0_r. f_equal. apply imap_ext. intros i x Hx. cbn. f_equal. lia. }
    change (ReSend (AcCommand op true) true :: ReTake :: ((fun a => ReSend (cache_action a) true) <$> others) ++ [ReGone nx; ReReply r])
      with ([ReSend (AcCommand op true) true; ReTake] ++ ((fun a => ReSend (cache_action a) true) <$> others) ++ [ReGone nx; ReReply r]).
    rewrite ra_run_app.
    rewrite take_command, ra_run_app. rewrite (Hsend others [] (S nx)) by (cbn; lia). cbn [app].
    set (bx := imap (fun i a => RReq (S nx + i) (cache_action a) true) others).
    assert (Hids : forall l n, omap (fun q => if rq_send q then Some (rq_id q) else None)
       (imap (fun i a => RReq (n + i) (cache_action a) true) l) = seq n (length l)).
    { induction l as [|a l IH]; intros n; [done|]. cbn. rewrite Nat.add_0_r. f_equal. rewrite <- IH.
      f_equal. apply imap_ext. intros i x Hx. cbn. f_equal. lia. }
    assert (Hkeep : forall l n, (nx < n)%nat -> List.filter (drop_gone nx) (imap (fun i a => RReq (n + i) (cache_action a) true) l)
      = imap (fun i a => RReq (n + i) (cache_action a) true) l /\
      existsb (fun q => negb (drop_gone nx q)) (imap (fun i a => RReq (n + i) (cache_action a) true) l) = false).
    { induction l as [|a l IH]; intros n Hn; [done|]. cbn [imap List.filter existsb].
      assert (drop_gone nx (RReq (n + 0) (cache_action a) true) = true) as ->.
      { unfold drop_gone. cbn [rq_send rq_id andb]. by rewrite (proj2 (Nat.eqb_neq _ _)) by lia. }
      cbn [negb orb].
      assert (imap ((fun i x => RReq (n + i) (cache_action x) true) ∘ S) l =
        imap (fun i x => RReq (S n + i) (cache_action x) true) l) as Hext.
      { apply imap_ext. intros i x Hx. cbn. f_equal. lia. }
      rewrite Hext. destruct (IH (S n) ltac:(lia)) as [H1 H2]. by rewrite H1, H2. }
    destruct (Hkeep others (S nx) ltac:(lia)) as [Hk1 Hk2]. fold bx in Hk1, Hk2.
    cbn [ra_run ra_step ra_alive ra_cur ra_box ra_users ra_next set_box set_cur].
    rewrite Hk1, Hk2, Nat.eqb_refl. cbn [ra_cur set_cur ra_alive ra_box ra_users ra_next].
    assert (Hfail : r_failed ([ObCommand nx (rc_cmd op)] ++ ([] ++ [ObLeft nx]) ++
      (ObDied :: (ObFail <$> omap (fun q => if rq_send q then Some (rq_id q) else None) bx)) ++ []) = seq (S nx) (length others)).
    { rewrite app_nil_r. cbn [app]. unfold r_failed. cbn [omap list_omap]. unfold bx. rewrite Hids.
      generalize (seq (S nx) (length others)). intros l. induction l as [|x l IH]; [done|]. rewrite fmap_cons. cbn [omap list_omap]. by f_equal. }
    destruct (rc_answer op r) as [x|]; eexists _, _; (split; [reflexivity|]); (split; [|split]);
      try (apply (died_dead k (RActor true bx (Some (nx, op, true, false)) ∅ (S nx + length others)))).
    all: try exact Hfail.
    all: unfold died; cbn [app]; right; right; by left.
Qed.

Lemma c69_patient_callers : forall k es s o,
  Forall for_cache es -> Forall patient es -> replies sane_reply k es -> replies token_reply k es ->
  (k = Cluster \/ Forall alone es) ->
  ra_run k ra_init es = Some (s, o) ->
  ra_alive s = true /\ ~ died o /\ r_failed o = [].
Proof.
  intros k es s o Hc Hp Hs He Ha H.
  set (GoodR := fun c r => sane_reply c r /\ token_reply c r).
  assert (Hr : replies GoodR k es) by (intros b r a s1 o1 cmd E R L; split; [by eapply Hs|by eapply He]).
  assert (Hg : Forall (good_event k GoodR true) es).
  { rewrite !Forall_forall in *. intros e Hin. specialize (Hc e Hin). specialize (Hp e Hin).
    destruct e as [a w|n| |r|u op|u r|u]; cbn [good_event]; try done.
    - destruct Hc as [m ->]. split; [|done]. destruct m; cbn [cache_action good_action]; try done; (split; [|done]);
        intros r [Hr1 Hr2]; cbn [lift rc_answer rc_cmd] in *.
      + cbn [r_add_challenge ro_reply]. unfold exec. destruct r as [v|e]; cbn; [by destruct (to_unit v)|done].
      + specialize (Hr1 (or_intror eq_refl)). unfold r_retrive_pow. cbn [ro_reply r_get_challenge]. unfold exec.
        destruct r as [v|e]; [|done]. cbn [rerr decodes] in *. destruct (to_str v) as [t|]; [|done].
        destruct (from_str decode_visit t) eqn:E; [done|by destruct (Hr1 t)].
      + destruct r as [v|e]; [by cbn|]. by destruct (Hr2 eq_refl e).
      + cbn [r_get_token ro_reply]. unfold exec. destruct (rerr r to_i32) as [z|e]; [|done].
        by destruct (z =? 1)%Z, (z =? 0)%Z.
    - destruct Ha as [Ha|Ha]; [done|]. destruct (Ha _ Hin). }
  destruct (healthy_run k GoodR true es s o Hr Hg H) as ((Hal & _) & Hd & Hf). done.
Qed.

Lemma c70_master_survives : forall k es s o,
  Forall for_master es -> Forall no_internal_data es -> replies sane_reply k es ->
  (k = Cluster \/ Forall alone es) ->
  ra_run k ra_init es = Some (s, o) ->
  ra_alive s = true /\ ~ died o /\ r_failed o = [].
Proof.
  intros k es s o Hc Hn Hs Ha H.
  assert (Hg : Forall (good_event k sane_reply false) es).
  { rewrite !Forall_forall in *. intros e Hin. specialize (Hc e Hin). specialize (Hn e Hin).
    destruct e as [a w|n| |r|u op|u r|u]; cbn [good_event]; try done.
    - split; [|done]. destruct Hc as [m Hm]. cbn [no_internal_data] in Hn.
      destruct m; cbn [master_action] in Hm; try done; injection Hm as <-; cbn [good_action]; try done; (split; [|done]);
        intros r Hr; cbn [lift rc_answer rc_cmd] in *.
      + destruct r as [v|e]; cbn; [by destruct (to_unit v)|done].
      + destruct r as [v|e]; cbn; [by destruct (to_unit v)|done].
      + destruct r as [v|e]; cbn; [by destruct (to_unit v)|done].
      + specialize (Hr (or_introl eq_refl)). cbn [ro_reply r_add_visitor]. unfold exec.
        destruct r as [v|e]; [|done]. cbn [rerr decodes] in *. destruct (to_str v) as [t|]; [|done].
        destruct (from_str decode_visit t) eqn:E; [done|by destruct (Hr t)].
    - destruct Ha as [Ha|Ha]; [done|]. destruct (Ha _ Hin). }
  destruct (healthy_run k sane_reply false es s o Hs Hg H) as ((Hal & _) & Hd & Hf). done.
Qed.

Lemma c71_internal_data_refuted : forall k s m (w : bool) q,
  m = RqGetData \/ (exists d, m = RqSetData d) ->
  exists a, master_action m = Some a /\
  (** [q]: requests that arrived before it is taken *)
  (idle s -> exists s' o,
     ra_run k s (ReSend a w :: ((fun x => ReSend x true) <$> q) ++ [ReTake]) = Some (s', o) /\
     died o /\ r_answered o = [] /\
     r_failed o = (if w then [ra_next s] else []) ++ seq (S (ra_next s)) (length q) /\ dead_for_good k s').
Proof.
  intros k s m w q Hm. exists AcPanic. split; [by destruct Hm as [-> | [d ->]]|].
  intros (Ha & Hc & Hb & Hu). destruct s as [al bx cu us nx]. cbn [ra_alive ra_cur ra_box ra_users ra_next] in *. subst al bx cu us.
  assert (Hsend : forall l (b : list rreq) n,
      ra_run k (RActor true b None ∅ n) ((fun a => ReSend a true) <$> l) =
        Some (RActor true (b ++ imap (fun i a => RReq (n + i) a true) l) None ∅ (n + length l)%nat, [])).
  { induction l as [|a l IH]; intros b n.
    - cbn. by rewrite app_nil_r, Nat.add_0_r.
    - rewrite fmap_cons. cbn [ra_run ra_step ra_alive ra_next ra_box ra_cur ra_users].
      unfold set_box. cbn [ra_alive ra_cur ra_users ra_next]. rewrite IH. cbn [app]. do 3 f_equal; [|cbn; lia].
      rewrite <- app_assoc. f_equal. cbn [imap]. cbn [app]. rewrite Nat.add_0_r. f_equal. apply imap_ext. intros i x Hx. cbn. f_equal. lia. }
  assert (Hids : forall (l : list action) n, omap (fun q => if rq_send q then Some (rq_id q) else None)
       (imap (fun i a => RReq (n + i) a true) l) = seq n (length l)).
  { induction l as [|a l IH]; intros n; [done|]. cbn. rewrite Nat.add_0_r. f_equal. rewrite <- IH.
    f_equal. apply imap_ext. intros i x Hx. cbn. f_equal. lia. }
  set (s1 := RActor true ([RReq nx AcPanic w] ++ imap (fun i a => RReq (S nx + i) a true) q) None ∅ (S nx + length q)).
  assert (Hr : ra_run k (RActor true [] None ∅ nx) (ReSend AcPanic w :: ((fun x => ReSend x true) <$> q)) = Some (s1, [])).
  { cbn [ra_run ra_step ra_alive ra_next ra_box ra_cur ra_users]. unfold set_box. cbn [ra_alive ra_cur ra_users ra_next app].
    by rewrite Hsend. }
  change (ReSend AcPanic w :: ((fun x => ReSend x true) <$> q) ++ [ReTake])
    with ((ReSend AcPanic w :: ((fun x => ReSend x true) <$> q)) ++ [ReTake]).
  rewrite ra_run_app, Hr, run_one. unfold s1 at 1. cbn [ra_step ra_alive ra_cur ra_box app rq_action]. fold s1.
  assert (Hw : waiting s1 = (if w then [nx] else []) ++ seq (S nx) (length q)).
  { unfold waiting, s1. cbn [ra_cur ra_box app omap list_omap rq_send rq_id]. rewrite <- Hids. by destruct w. }
  eexists _, _. split; [reflexivity|]. split; [by left|]. rewrite app_nil_r. split; [apply answered_fails|]. split; [|apply died_dead].
  rewrite <- Hw. apply failed_fails.
Qed.

Lemma c72_settled_once_in_order : forall k es s o,
  ra_run k ra_init es = Some (s, o) ->
  asked_from 0 es ≡ₚ waiting s ++ r_answered o ++ r_failed o ++ r_left o /\
  NoDup (waiting s ++ r_answered o ++ r_failed o ++ r_left o) /\
  StronglySorted lt (r_answered o).
Proof.
  intros k es s o H. destruct (run_accounted k ra_init es s o init_inv H) as [_ Hp]. cbn [waiting ra_cur ra_init ra_box omap list_omap app ra_next] in Hp.
  split; [exact Hp|]. split.
  - unfold settled in Hp. rewrite <- Hp. apply sorted_NoDup, asked_sorted.
  - apply (run_answers k ra_init es s o 0); [apply init_inv| |done]. split; [by apply Forall_nil|cbn; lia].
Qed.

Lemma c73_shared_connection_refuted :
  (** a holder's command is in flight: the actor's next one kills the actor *)
  (forall s u op op' st w, idle s ->
     exists s' o, ra_run Single s [ReUser u op; ReSend (AcCommand op' st) w; ReTake] = Some (s', o) /\
       died o /\ r_failed o = (if w then [ra_next s] else []) /\ dead_for_good Single s') /\
  (** the actor's command is in flight: the holder panics *)
  (forall s u op op' st w, idle s ->
     exists s' o, ra_run Single s [ReSend (AcCommand op' st) w; ReTake; ReUser u op] = Some (s', o) /\ ObUserPanic u ∈ o) /\
  (** two holders: the second one panics *)
  (forall s u u' op op', idle s -> u <> u' ->
     exists s' o, ra_run Single s [ReUser u op; ReUser u' op'] = Some (s', o) /\ ObUserPanic u' ∈ o).
Proof.
  assert (Hne : forall u (op : rcmd), bool_decide ((<[u := op]> ∅ : gmap nat rcmd) <> ∅) = true)
    by (intros u op; apply bool_decide_eq_true_2, insert_non_empty).
  assert (He : bool_decide ((∅ : gmap nat rcmd) <> ∅) = false) by (apply bool_decide_eq_false_2; intros H; by apply H).
  split_and!; intros [al bx cu us nx]; intros; destruct H as (H1 & H2 & H3 & H4); cbn [ra_alive ra_cur ra_box ra_users] in *; subst.
  - cbn [ra_run ra_step ra_users ra_cur]. rewrite lookup_empty. cbn [borrowed ra_cur ra_users]. rewrite He. unfold set_users, set_box.
    cbn [ra_alive ra_box ra_cur ra_users ra_next app rq_action borrowed]. rewrite Hne.
    eexists _, _. split; [reflexivity|]. split; [by right; left|]. split; [by destruct w|].
    apply (died_dead Single (RActor true [RReq nx (AcCommand op' st) w] None (<[u:=op]> ∅) (S nx))).
  - change [ReSend (AcCommand op' st) w; ReTake; ReUser u op] with ([ReSend (AcCommand op' st) w; ReTake] ++ [ReUser u op]).
    rewrite ra_run_app, take_command, run_one. cbn [ra_step ra_users]. rewrite lookup_empty. cbn [borrowed ra_cur].
    eexists _, _. split; [reflexivity|]. by right; left.
  - cbn [ra_run ra_step ra_users ra_cur]. rewrite lookup_empty. cbn [borrowed ra_cur ra_users]. rewrite He. unfold set_users.
    cbn [ra_alive ra_box ra_cur ra_users ra_next app]. rewrite lookup_insert_ne by done. rewrite lookup_empty.
    cbn [borrowed ra_cur ra_users]. rewrite Hne. eexists _, _. split; [reflexivity|]. by right; left.
Qed.

Lemma c73_cluster : forall s e s' o u,
  ra_step Cluster s e = Some (s', o) -> ObUserPanic u ∈ o ->
  exists r op, e = ReUserReply u r /\ ra_users s !! u = Some op /\ rc_answer op r = Panic.
Proof.
  assert (Hdie : forall s u, ObUserPanic u ∉ (die s).2).
  { intros s u. cbn. intros H. apply elem_of_cons in H as [H|H]; [done|]. apply elem_of_list_fmap in H as (? & ? & _). done. }
  intros s e s' o u H Hu. destruct e as [a w|n| |r|v op|v r|v]; cbn [ra_step] in H.
  - destruct (ra_alive s); injection H as <- <-; [by apply elem_of_nil in Hu|]. destruct w; [|by apply elem_of_nil in Hu].
    by apply elem_of_list_singleton in Hu.
  - assert (Ho : forall l : list rreq, ObUserPanic u ∉ (if existsb (fun q => negb (drop_gone n q)) l then [ObLeft n] else [])).
    { intros l Hl. destruct (existsb _ l); [by apply elem_of_list_singleton in Hl|by apply elem_of_nil in Hl]. }
    destruct (ra_cur s) as [[[[m op] st] [|]]|]; [destruct (m =? n)%nat|..]; injection H as <- <-; try (by apply Ho in Hu).
    apply elem_of_app in Hu as [Hu|Hu]; [by apply Ho in Hu|by apply elem_of_list_singleton in Hu].
  - destruct (ra_alive s), (ra_cur s), (ra_box s) as [|q rest]; try done. destruct (rq_action q); [|injection H as <- <-|].
    + destruct (borrowed s); [done|]. injection H as <- <-. by apply elem_of_list_singleton in Hu.
    + destruct (rq_send q); [by apply elem_of_list_singleton in Hu|by apply elem_of_nil in Hu].
    + injection H as <- <-. by apply Hdie in Hu.
  - destruct (ra_cur s) as [[[[m op] st] w]|]; [|done]. destruct (rc_answer op r); [|injection H as <- <-; by apply Hdie in Hu].
    destruct w; [injection H as <- <-; by apply elem_of_list_singleton in Hu|].
    destruct st; injection H as <- <-; [by apply Hdie in Hu|by apply elem_of_nil in Hu].
  - destruct (ra_users s !! v); [done|]. destruct (borrowed s); [done|]. injection H as <- <-. by apply elem_of_list_singleton in Hu.
  - destruct (ra_users s !! v) as [op|] eqn:E; [|done]. destruct (rc_answer op r) eqn:Er; injection H as <- <-;
      apply elem_of_list_singleton in Hu; [done|]. injection Hu as ->. by exists r, op.
  - destruct (ra_users s !! v); [|done]. injection H as <- <-. by apply elem_of_nil in Hu.
Qed.

Lemma in_flight k es : forall s o, ra_run k ra_init es = Some (s, o) ->
  (died o -> ra_alive s = false) /\ (ra_alive s = false -> ra_cur s = None) /\
  (forall u, ra_users s !! u <> None -> user_in_flight k es u) /\ (ra_cur s <> None -> actor_in_flight k es).
Proof.
  induction es as [|e es IH] using rev_ind; intros s o H.
  { injection H as <- <-. split_and!; try done. intros Hd. by apply elem_of_nil in Hd. }
  pose proof H as Hfull. rewrite ra_run_app in H. destruct (ra_run k ra_init es) as [[s1 o1]|] eqn:Hr; [|done].
  cbn [ra_run] in H. destruct (ra_step k s1 e) as [[s2 o2]|] eqn:Hs; [|done]. injection H as <- <-. rewrite app_nil_r in *.
  destruct (IH _ _ eq_refl) as (Hd & Ha & Hu & Hc). clear IH.
  (* what stays in flight *)
  assert (Hku : forall u, user_in_flight k es u -> (forall r, e <> ReUserReply u r) -> e <> ReUserGone u ->
    user_in_flight k (es ++ [e]) u).
  { intros u (es1 & op & es2 & -> & H1 & H2 & H3) He1 He2. exists es1, op, (es2 ++ [e]).
    rewrite <- app_assoc. split; [done|]. split; [done|]. split.
    - intros r [Hin|Hin]%elem_of_app; [by apply (H2 r)|]. apply elem_of_list_singleton in Hin. by apply (He1 r).
    - intros [Hin|Hin]%elem_of_app; [done|]. apply elem_of_list_singleton in Hin. by apply He2. }
  assert (Hdied : died (o1 ++ o2) -> died o1 \/ died o2) by (intros [?|?]%elem_of_app; auto).
  assert (Hkc : actor_in_flight k es -> (forall r, e <> ReReply r) -> ~ died (o1 ++ o2) -> actor_in_flight k (es ++ [e])).
  { intros (es1 & n & cmd & es2 & -> & H1 & H2 & H3) He Hnd. exists es1, n, cmd, (es2 ++ [e]).
    split; [by rewrite <- app_assoc|]. split; [done|]. split.
    - intros r [Hin|Hin]%elem_of_app; [by apply (H2 r)|]. apply elem_of_list_singleton in Hin. by apply (He r).
    - intros s' o'. rewrite Hfull. by intros [= <- <-]. }
  (* steps that neither kill the actor nor touch the command in flight *)
  assert (Hquiet : ra_alive s2 = ra_alive s1 -> (ra_cur s2 <> None -> ra_cur s1 <> None) -> (forall r, e <> ReReply r) -> ~ died o2 ->
    (died (o1 ++ o2) -> ra_alive s2 = false) /\ (ra_alive s2 = false -> ra_cur s2 = None) /\
    (ra_cur s2 <> None -> actor_in_flight k (es ++ [e]))).
  { intros E1 E2 He Hno. rewrite E1. split; [|split].
    - intros [?|?]%Hdied; [by apply Hd|done].
    - intros Hf. specialize (Ha Hf). destruct (ra_cur s2); [|done]. by destruct E2.
    - intros Hne. apply Hkc; [auto|done|]. intros [Hx|Hx]%Hdied; [|done]. specialize (Hd Hx). by apply (E2 Hne), Ha. }
  assert (Hsplit : forall (A B C D : Prop), (A /\ B /\ D) -> C -> A /\ B /\ C /\ D) by (by intros A B C D (? & ? & ?)).
  assert (Hkilled : (s2, o2) = die s1 -> (forall u r, e <> ReUserReply u r) -> (forall u, e <> ReUserGone u) ->
    (died (o1 ++ o2) -> ra_alive s2 = false) /\ (ra_alive s2 = false -> ra_cur s2 = None) /\
    (forall u, ra_users s2 !! u <> None -> user_in_flight k (es ++ [e]) u) /\ (ra_cur s2 <> None -> actor_in_flight k (es ++ [e]))).
  { unfold die. intros [= -> ->] He1 He2. split_and!; try done. intros u Hne. apply Hku; [by apply Hu|by intros r; apply He1|apply He2]. }
  assert (Hsame : ra_users s2 = ra_users s1 -> (forall u r, e <> ReUserReply u r) -> (forall u, e <> ReUserGone u) ->
    forall u, ra_users s2 !! u <> None -> user_in_flight k (es ++ [e]) u).
  { intros E He1 He2 u Hne. rewrite E in Hne. apply Hku; [by apply Hu|by intros r; apply He1|apply He2]. }
  assert (Hnil : ~ died []) by (intros Hx; by apply elem_of_nil in Hx).
  assert (Hone : forall ob, ob <> ObDied -> ~ died [ob]) by (intros ob Hob Hx; apply elem_of_list_singleton in Hx; congruence).
  pose proof Hs as Hstep.
  destruct e as [a w|n| |r|v op|v r|v]; cbn [ra_step] in Hs.
  - destruct (ra_alive s1) eqn:El; injection Hs as <- <-; (apply Hsplit; [apply Hquiet|by apply Hsame]); try done; try (destruct w; auto; by apply Hone).
  - assert (Hgone : ~ died (if existsb (fun q => negb (drop_gone n q)) (ra_box s1) then [ObLeft n] else []))
      by (destruct (existsb _ _); [by apply Hone|done]).
    destruct (ra_cur s1) as [[[[m op] st] [|]]|] eqn:Ec; [destruct (m =? n)%nat|..]; injection Hs as <- <-;
      (apply Hsplit; [apply Hquiet|by apply Hsame]); try done.
    all: try (by rewrite Ec). all: cbn; try (by rewrite Ec).
    all: intros [Hx|Hx]%elem_of_app; [done|]; by apply elem_of_list_singleton in Hx.
  - destruct (ra_alive s1) eqn:El, (ra_cur s1) eqn:Ec, (ra_box s1) as [|q rest] eqn:Eb; try done.
    destruct (rq_action q) as [op st|x|]; [|injection Hs as <- <-|].
    + destruct (borrowed s1); [destruct k; [|done]; injection Hs as <- <-; by apply Hkilled|]. injection Hs as <- <-.
      assert (Hnd : ~ died (o1 ++ [ObCommand (rq_id q) (rc_cmd op)])).
      { intros [Hx|Hx]%Hdied; [by specialize (Hd Hx)|]. by apply Hone in Hx. }
      split_and!; [done|by cbn; rewrite El|by apply Hsame|]. intros _. exists es, (rq_id q), (rc_cmd op), []. split; [done|].
      split; [|split; [by intros r Hx%elem_of_nil|]].
      * eexists _, _, _, _. split; [exact Hr|]. split; [exact Hstep|]. by left.
      * rewrite Hfull. by intros s' o' [= <- <-].
    + apply Hsplit; [apply Hquiet|by apply Hsame]; try done; [cbn; by rewrite Ec, ?El..|].
      destruct (rq_send q); [by apply Hone|done].
    + injection Hs as <- <-. by apply Hkilled.
  - destruct (ra_cur s1) as [[[[m op] st] w]|] eqn:Ec; [|done].
    destruct (rc_answer op r); [|injection Hs as <- <-; by apply Hkilled].
    destruct w; [|destruct st; [injection Hs as <- <-; by apply Hkilled|]]; injection Hs as <- <-;
      (split_and!; [|done|by apply Hsame|done]); intros [Hx|Hx]%Hdied; try (by apply Hd in Hx); by (apply Hone in Hx || apply Hnil in Hx).
  - destruct (ra_users s1 !! v) eqn:Ev; [done|]. destruct (borrowed s1).
    + destruct k; [|done]. injection Hs as <- <-. apply Hsplit; [apply Hquiet; try done; by apply Hone|by apply Hsame].
    + injection Hs as <- <-. apply Hsplit; [apply Hquiet; try done; by apply Hone|]. intros u Hne.
      destruct (decide (u = v)) as [->|Hne2].
      * exists es, op, []. split; [done|]. split; [|split; [by intros r Hx%elem_of_nil|by intros Hx%elem_of_nil]].
        eexists _, _, _, _. split; [exact Hr|]. split; [exact Hstep|]. by left.
      * cbn in Hne. rewrite lookup_insert_ne in Hne by done. by apply Hku; [apply Hu|..].
  - destruct (ra_users s1 !! v) as [op|] eqn:Ev; [|done].
    destruct (rc_answer op r); injection Hs as <- <-; (apply Hsplit; [apply Hquiet; try done; by apply Hone|]); intros u Hne;
      cbn in Hne; (destruct (decide (u = v)) as [->|Hne2]; [by rewrite lookup_delete in Hne|]);
      rewrite lookup_delete_ne in Hne by done; (apply Hku; [by apply Hu| |done]); intros r' [= -> _]; done.
  - destruct (ra_users s1 !! v) as [op|] eqn:Ev; [|done]. injection Hs as <- <-. apply Hsplit; [by apply Hquiet|]. intros u Hne.
    cbn in Hne. destruct (decide (u = v)) as [->|Hne2]; [by rewrite lookup_delete in Hne|].
    rewrite lookup_delete_ne in Hne by done. apply Hku; [by apply Hu|done|]. by intros [= ->].
Qed.

Lemma c73_only_overlap : forall k es s o e s' o',
  ra_run k ra_init es = Some (s, o) -> ra_step k s e = Some (s', o') ->
  (exists u op, e = ReUser u op /\ ObUserPanic u ∈ o') \/ (e = ReTake /\ died o' /\ Forall no_internal_data es) ->
  k = Single /\ (actor_in_flight k es \/ exists u, user_in_flight k es u).
Proof.
  intros k es s o e s' o' Hr Hs Hbad. destruct (in_flight k es s o Hr) as (Hd & Ha & Hu & Hc).
  assert (Hb : borrowed s = true -> actor_in_flight k es \/ exists u, user_in_flight k es u).
  { unfold borrowed. destruct (ra_cur s) as [c|]; [intros _; left; by apply Hc|]. intros H. right.
    apply bool_decide_eq_true in H. apply map_choose in H as (u & op & Hop). exists u. apply Hu. by rewrite Hop. }
  destruct Hbad as [(u & op & -> & Hp)|(-> & Hp & Hno)]; cbn [ra_step] in Hs.
  - destruct (ra_users s !! u); [done|]. destruct (borrowed s); [destruct k; [|done]; by split; [|apply Hb]|].
    injection Hs as <- <-. by apply elem_of_list_singleton in Hp.
  - destruct (ra_alive s), (ra_cur s) eqn:Ec, (ra_box s) as [|q rest] eqn:Eb; try done. destruct (rq_action q) eqn:Eq.
    + destruct (borrowed s); [destruct k; [|done]; by split; [|apply Hb]|]. injection Hs as <- <-.
      by apply elem_of_list_singleton in Hp.
    + injection Hs as <- <-. destruct (rq_send q); [by apply elem_of_list_singleton in Hp|by apply elem_of_nil in Hp].
    + exfalso. assert (Hq : q ∈ ra_box s) by (rewrite Eb; by left). clear -Hr Hno Hq Eq. revert s o Hr Hq.
      induction es as [|e es IH] using rev_ind; intros s o Hr Hq; [injection Hr as <- <-; by apply elem_of_nil in Hq|].
      rewrite ra_run_app in Hr. destruct (ra_run k ra_init es) as [[s1 o1]|] eqn:H1; [|done]. cbn [ra_run] in Hr.
      destruct (ra_step k s1 e) as [[s2 o2]|] eqn:Hs; [|done]. injection Hr as <- _.
      apply Forall_app in Hno as [Hno He]. rewrite Forall_singleton in He. apply (IH Hno s1 o1 eq_refl). clear IH H1.
      destruct e as [a w|n| |r|v op|v r|v]; cbn [ra_step] in Hs.
      * destruct (ra_alive s1); injection Hs as <- <-; [|done]. apply elem_of_app in Hq as [Hq|Hq]; [done|].
        apply elem_of_list_singleton in Hq as ->. by destruct He.
      * assert (Hf : q ∈ List.filter (drop_gone n) (ra_box s1) -> q ∈ ra_box s1).
        { rewrite !elem_of_list_In. intros Hx. by apply filter_In in Hx as [? _]. }
        destruct (ra_cur s1) as [[[[m op] st] [|]]|]; [destruct (m =? n)%nat|..]; injection Hs as <- <-; by apply Hf.
      * destruct (ra_alive s1), (ra_cur s1), (ra_box s1) as [|q' rest'] eqn:Eb1; try done. destruct (rq_action q').
        -- destruct (borrowed s1); [destruct k; [|done]|]; injection Hs as <- <-; [by apply elem_of_nil in Hq|by right].
        -- injection Hs as <- <-. by right.
        -- injection Hs as <- <-. by apply elem_of_nil in Hq.
      * destruct (ra_cur s1) as [[[[m op] st] w]|]; [|done]. destruct (rc_answer op r); [|injection Hs as <- <-; by apply elem_of_nil in Hq].
        destruct w; [by injection Hs as <- <-|]. destruct st; injection Hs as <- <-; [by apply elem_of_nil in Hq|done].
      * destruct (ra_users s1 !! v); [done|]. destruct (borrowed s1); [destruct k; [|done]|]; by injection Hs as <- <-.
      * destruct (ra_users s1 !! v); [|done]. destruct (rc_answer _ r); by injection Hs as <- <-.
      * destruct (ra_users s1 !! v); [|done]. by injection Hs as <- <-.
Qed.

Lemma c74_duration_refuted :
  (** what Redis does with a token decides: outside the range it takes, the cache dies *)
  (forall k s server now token key dur, idle s ->
     let m := CacheResult token key dur in
     exists cmd server' reply s' o, serve now server cmd = Some (server', reply) /\
       ra_run k s [ReSend (cache_action (HmCacheResult m)) true; ReTake; ReReply reply] = Some (s', o) /\
       ObCommand (ra_next s) cmd ∈ o /\
       (storable now dur -> o = [ObCommand (ra_next s) cmd; ObAnswer (ra_next s) (RoUnit (Ok tt))] /\ ra_alive s' = true) /\
       (~ storable now dur -> o = [ObCommand (ra_next s) cmd; ObDied; ObFail (ra_next s)] /\ server' = server /\ dead_for_good k s')) /\
  (** and the builders accept such durations *)
  (forall d now dur, ~ storable now dur -> 0 < dur ->
     mb_build (mb_run [MBDefense d; MBDuration dur]) = Ok (MCaptcha 0 d dur)).
Proof.
  split.
  - intros k s server now token key dur (Ha & Hc & Hb & Hu) m.
    destruct s as [al bx cu us nx]. cbn [ra_alive ra_cur ra_box ra_users ra_next] in *. subst al bx cu us.
    set (cmd := ["SET"; token_key key token; key; "EX"; print_num dur]%string).
    set (op := lift RoUnit (r_add_token m)).
    assert (Hs : serve now server cmd = if ex_ok now dur
      then Some (<[token_key key token := (key, now + dur * 1000)]> server, RrVal RvOkay)
      else Some (server, RrErr "ERR invalid expire time in 'set' command"%string)).
    { unfold cmd. cbn [serve]. by rewrite digits_print. }
    assert (Hrun : forall r, ra_run k (RActor true [] None ∅ nx) [ReSend (cache_action (HmCacheResult m)) true; ReTake; ReReply r] =
      match ra_step k (RActor true [] (Some (nx, op, true, true)) ∅ (S nx)) (ReReply r) with
      | Some (s1, o1) => Some (s1, ObCommand nx cmd :: o1) | None => None end).
    { intros r. change [ReSend (cache_action (HmCacheResult m)) true; ReTake; ReReply r]
        with ([ReSend (AcCommand op true) true; ReTake] ++ [ReReply r]).
      rewrite ra_run_app, take_command, run_one. destruct (ra_step k _ (ReReply r)) as [[s1 o1]|]; [|done].
      rewrite app_nil_r. done. }
    exists cmd. destruct (ex_ok now dur) eqn:Ex.
    + eexists _, _, _, _. split; [exact Hs|]. split; [by rewrite Hrun|]. split; [by left|]. split; [done|].
      intros Hn. destruct Hn. by apply ex_ok_spec.
    + eexists _, _, _, _. split; [exact Hs|]. split; [by rewrite Hrun|]. split; [by left|]. split.
      * intros Hn. apply ex_ok_spec in Hn. congruence.
      * intros _. split; [done|]. split; [done|].
        apply (died_dead k (RActor true [] (Some (nx, op, true, true)) ∅ (S nx))).
  - intros d now dur _ Hd. unfold mb_build. cbn. destruct dur; [lia|done].
Qed.
