From Coq Require Import ZifyBool ZifyN ZifyNat Lia Sorted.
From Verif Require Import Model.Base Model.MCaptcha Model.HashCache Model.Master Model.Json Model.Serde Model.Redis Model.RedisActor
  Spec.RedisActorSpec.

Lemma ra_run_app k s es1 es2 :
  ra_run k s (es1 ++ es2) =
    match ra_run k s es1 with
    | Some (s1, o1) => match ra_run k s1 es2 with Some (s2, o2) => Some (s2, o1 ++ o2) | None => None end
    | None => None
    end.
Proof.
  revert s. induction es1 as [|e es1 IH]; intros s; cbn [app ra_run].
  - by destruct (ra_run k s es2) as [[? ?]|].
  - destruct (ra_step k s e) as [[s1 o1]|]; [|done]. rewrite IH. destruct (ra_run k s1 es1) as [[s2 o2]|]; [|done].
    destruct (ra_run k s2 es2) as [[s3 o3]|]; [|done]. by rewrite app_assoc.
Qed.

(** ** Dead actors *)
Lemma dead_step k s e s' o : ra_alive s = false -> ra_box s = [] -> ra_cur s = None -> ra_step k s e = Some (s', o) ->
  (ra_alive s' = false /\ ra_box s' = [] /\ ra_cur s' = None) /\
  r_answered o = [] /\ r_failed o = asked_from (ra_next s) [e] /\
  ra_next s' = (match e with ReSend _ _ => S (ra_next s) | _ => ra_next s end).
Proof.
  destruct s as [al bx cu us nx]. cbn [ra_alive ra_box ra_cur ra_next]. intros -> -> ->. intros H.
  destruct e as [a w|n| |r|u op|u r|u]; cbn in H.
  - destruct w; injection H as <- <-; done.
  - injection H as <- <-. done.
  - done.
  - done.
  - destruct (us !! u); [done|]. unfold borrowed in H. cbn in H.
    destruct (bool_decide (us <> ∅)); [destruct k; [|done]|]; by injection H as <- <-.
  - destruct (us !! u); [|done]. destruct (rc_answer _ r); by injection H as <- <-.
  - destruct (us !! u); [|done]. by injection H as <- <-.
Qed.
Lemma asked_from_cons n e es :
  asked_from n (e :: es) = asked_from n [e] ++ asked_from (match e with ReSend _ _ => S n | _ => n end) es.
Proof. destruct e as [a [|]|n0| |r|u op|u r|u]; done. Qed.
Lemma dead_run k s es s' o : ra_alive s = false -> ra_box s = [] -> ra_cur s = None -> ra_run k s es = Some (s', o) ->
  ra_alive s' = false /\ r_answered o = [] /\ r_failed o = asked_from (ra_next s) es.
Proof.
  revert s s' o. induction es as [|e es IH]; intros s s' o H1 H2 H3; cbn [ra_run]; [by intros [= <- <-]|].
  destruct (ra_step k s e) as [[s1 o1]|] eqn:E; [|done]. destruct (ra_run k s1 es) as [[s2 o2]|] eqn:E2; [|done].
  intros [= <- <-]. destruct (dead_step _ _ _ _ _ H1 H2 H3 E) as ((Ha & Hb & Hc) & Hans & Hf & Hn).
  destruct (IH _ _ _ Ha Hb Hc E2) as (H4 & H5 & H6). split; [done|]. split.
  - unfold r_answered in *. by rewrite omap_app, Hans, H5.
  - rewrite asked_from_cons, <- Hf, <- Hn, <- H6. unfold r_failed. by rewrite omap_app.
Qed.

(** ** Nothing is lost *)
Definition cur_ids (s : ractor) : list nat := match ra_cur s with Some (n, _, _, true) => [n] | _ => [] end.
Definition box_ids (b : list rreq) : list nat := omap (fun q => if rq_send q then Some (rq_id q) else None) b.
Definition all_ids (s : ractor) : list nat :=
  match ra_cur s with Some (n, _, _, _) => [n] | None => [] end ++ (rq_id <$> ra_box s).
(** Request numbers ascend: current, then mailbox, then the next one. *)
Definition inv (s : ractor) : Prop :=
  StronglySorted lt (all_ids s) /\ Forall (fun n => n < ra_next s)%nat (all_ids s) /\
  (ra_alive s = false -> ra_box s = [] /\ ra_cur s = None).
Lemma sorted_app_last (l : list nat) n : StronglySorted lt l -> Forall (fun x => x < n)%nat l -> StronglySorted lt (l ++ [n]).
Proof.
  induction 1 as [|x l Hl IH Hx]; intros H; [by repeat constructor|]. apply Forall_cons in H as [H1 H2].
  cbn [app]. constructor; [by apply IH|]. apply Forall_app. split; [done|]. by apply Forall_singleton.
Qed.
Lemma sorted_sub (l l' : list nat) : sublist l l' -> StronglySorted lt l' -> StronglySorted lt l.
Proof.
  induction 1 as [|x l l' Hs IH|x l l' Hs IH]; intros H; [done| |].
  - apply StronglySorted_inv in H as [H1 H2]. constructor; [by apply IH|].
    rewrite Forall_forall in *. intros y Hy. apply H2. by apply (elem_of_submseteq l l'); [|apply sublist_submseteq].
  - apply StronglySorted_inv in H as [H1 H2]. by apply IH.
Qed.
Lemma box_filter_gone n b : box_ids (List.filter (drop_gone n) b) =
  List.filter (fun m => negb (m =? n)%nat) (box_ids b).
Proof.
  induction b as [|q b IH]; [done|]. cbn [List.filter]. unfold drop_gone at 1.
  unfold box_ids in *. destruct q as [m a w]. cbn [rq_send rq_id]. destruct w; cbn [andb negb omap list_omap rq_send rq_id].
  - cbn [List.filter]. destruct (m =? n)%nat; cbn [negb]; [exact IH|]. cbn [omap list_omap rq_send rq_id]. by rewrite <- IH.
  - exact IH.
Qed.

Lemma existsb_gone n b : existsb (fun q => negb (drop_gone n q)) b = bool_decide (n ∈ box_ids b).
Proof.
  induction b as [|q b IH]; [done|]. cbn [existsb]. rewrite IH. unfold drop_gone, box_ids. destruct q as [m a w].
  cbn [rq_send rq_id]. destruct w; cbn [andb negb omap list_omap rq_send rq_id orb]; [|done].
  apply eq_true_iff_eq. rewrite orb_true_iff, !bool_decide_eq_true, elem_of_cons, negb_involutive, Nat.eqb_eq.
  split; intros [H|H]; auto.
Qed.
Lemma box_ids_sublist b : sublist (box_ids b) (rq_id <$> b).
Proof.
  induction b as [|q b IH]; [done|]. unfold box_ids. cbn [omap list_omap]. rewrite fmap_cons.
  destruct (rq_send q); [by apply sublist_skip|by apply sublist_cons].
Qed.
Lemma sorted_NoDup (l : list nat) : StronglySorted lt l -> NoDup l.
Proof.
  induction 1 as [|x l Hl IH Hx]; [by apply NoDup_nil|]. apply NoDup_cons. split; [|done].
  intros Hin. rewrite Forall_forall in Hx. specialize (Hx x Hin). lia.
Qed.
Lemma filter_remove n (l : list nat) : NoDup l ->
  l ≡ₚ List.filter (fun m => negb (m =? n)%nat) l ++ (if bool_decide (n ∈ l) then [n] else []).
Proof.
  induction 1 as [|x l Hx Hnd IH]; [done|]. cbn [List.filter]. destruct (Nat.eqb_spec x n) as [->|Hne]; cbn [negb].
  - rewrite bool_decide_eq_true_2 by (by left). rewrite bool_decide_eq_false_2 in IH by done. rewrite app_nil_r in IH.
    rewrite <- IH. by rewrite (Permutation_app_comm l [n]).
  - rewrite <- app_comm_cons. apply Permutation_skip. rewrite IH at 1. 
    assert (bool_decide (n ∈ x :: l) = bool_decide (n ∈ l)) as ->; [|done].
    apply bool_decide_ext. rewrite elem_of_cons. split; [by intros [?|?]|by right].
Qed.
Lemma filter_box_sublist n b : sublist (rq_id <$> List.filter (drop_gone n) b) (rq_id <$> b).
Proof.
  induction b as [|q b IH]; [done|]. cbn [List.filter]. destruct (drop_gone n q); rewrite !fmap_cons;
    [by apply sublist_skip|by apply sublist_cons].
Qed.

Definition settled (o : list robs) : list nat := r_answered o ++ r_failed o ++ r_left o.
Lemma failed_fails l : r_failed (ObDied :: (ObFail <$> l)) = l.
Proof. unfold r_failed. cbn [omap list_omap]. induction l as [|n l IH]; [done|]. rewrite fmap_cons. cbn [omap list_omap]. by f_equal. Qed.
Lemma answered_fails l : r_answered (ObDied :: (ObFail <$> l)) = [].
Proof. unfold r_answered. cbn [omap list_omap]. induction l as [|n l IH]; [done|]. rewrite fmap_cons. exact IH. Qed.
Lemma left_fails l : r_left (ObDied :: (ObFail <$> l)) = [].
Proof. unfold r_left. cbn [omap list_omap]. induction l as [|n l IH]; [done|]. rewrite fmap_cons. exact IH. Qed.
Lemma waiting_eq s : waiting s = cur_ids s ++ box_ids (ra_box s).
Proof. done. Qed.
Lemma sorted_app_inv_l (a b : list nat) : StronglySorted lt (a ++ b) -> StronglySorted lt b.
Proof. induction a as [|x a IH]; [done|]. intros H. cbn in H. apply StronglySorted_inv in H as [H _]. by apply IH. Qed.
Lemma inv_waiting_NoDup s : inv s -> NoDup (waiting s).
Proof.
  intros (Hs & _). apply sorted_NoDup. apply (sorted_sub _ (all_ids s)); [|done]. unfold waiting, all_ids.
  apply sublist_app; [|apply box_ids_sublist]. destruct (ra_cur s) as [[[[n op] st] [|]]|]; try done.
  apply sublist_nil_l.
Qed.

Definition ids_cur (c : option (nat * rcmd * bool * bool)) : list nat := match c with Some (n, _, _, _) => [n] | None => [] end.
Definition w_cur (c : option (nat * rcmd * bool * bool)) : list nat := match c with Some (n, _, _, true) => [n] | _ => [] end.
Definition next_after (n : nat) (e : revent) : nat := match e with ReSend _ _ => S n | _ => n end.
(** One step: numbers stay ordered, and what is waited for is accounted for. *)
Definition accounted (s : ractor) (e : revent) (s' : ractor) (o : list robs) : Prop :=
  inv s' /\ ra_next s' = next_after (ra_next s) e /\
  waiting s ++ asked_from (ra_next s) [e] ≡ₚ waiting s' ++ settled o.
Lemma die_accounted s e : (forall a w, e <> ReSend a w) -> inv s -> accounted s e (fst (die s)) (snd (die s)).
Proof.
  intros He (Hs & Hb & Hd). unfold accounted, die. cbn [fst snd]. split; [|split].
  - split; [by constructor|]. split; [by apply Forall_nil|done].
  - destruct e; try done. by destruct (He a wants).
  - unfold settled. rewrite answered_fails, failed_fails, left_fails.
    assert (asked_from (ra_next s) [e] = []) as -> by (destruct e as [a w| | | | | |]; [by destruct (He a w)|..]; done).
    by rewrite app_nil_r.
Qed.
Lemma quiet_accounted s e s' o : (forall a w, e <> ReSend a w) -> inv s ->
  ra_box s' = ra_box s -> ra_cur s' = ra_cur s -> ra_alive s' = ra_alive s -> ra_next s' = ra_next s ->
  settled o = [] -> accounted s e s' o.
Proof.
  intros He (Hs & Hb & Hd) H1 H2 H3 H4 H5. unfold accounted, inv, all_ids, waiting. rewrite H1, H2, H3, H4, H5.
  split; [done|]. split; [destruct e as [a w| | | | | |]; [by destruct (He a w)|..]; done|].
  assert (asked_from (ra_next s) [e] = []) as -> by (destruct e as [a w| | | | | |]; [by destruct (He a w)|..]; done).
  done.
Qed.
Lemma step_accounted k s e s' o : inv s -> ra_step k s e = Some (s', o) -> accounted s e s' o.
Proof.
  intros Hinv H. pose proof Hinv as (Hs & Hb & Hd). pose proof (inv_waiting_NoDup s Hinv) as Hnd.
  destruct e as [a w|n| |r|u op|u r|u].
  - cbn [ra_step] in H. destruct (ra_alive s) eqn:Ha; cbn [andb] in H.
    + injection H as <- <-. unfold accounted, inv, all_ids, waiting, set_box. cbn [ra_box ra_cur ra_alive ra_next next_after].
      split; [|split; [done|]].
      * rewrite fmap_app, app_assoc. split; [by apply sorted_app_last|]. split; [|done].
        apply Forall_app. split; [|apply Forall_singleton; cbn; lia].
        apply (Forall_impl _ _ _ Hb). intros x Hx. cbn in Hx. lia.
      * rewrite omap_app. cbn [omap list_omap rq_send rq_id asked_from settled]. unfold settled. cbn [r_answered r_failed r_left omap list_omap app].
        destruct w; cbn [asked_from]; rewrite !app_nil_r, ?app_assoc; done.
    + destruct (Hd eq_refl) as [Hbx Hcu].
      destruct w; injection H as <- <-; unfold accounted, inv, all_ids, waiting; cbn [ra_box ra_cur ra_alive ra_next next_after];
        rewrite Hbx, Hcu; (split; [split; [by constructor|split; [by apply Forall_nil|done]]|]); done.
  - cbn [ra_step] in H. rewrite existsb_gone in H.
    assert (Hgen : forall c', ids_cur c' = ids_cur (ra_cur s) ->
      forall o2, w_cur (ra_cur s) ≡ₚ w_cur c' ++ settled o2 ->
      settled ((if bool_decide (n ∈ box_ids (ra_box s)) then [ObLeft n] else []) ++ o2) =
        (if bool_decide (n ∈ box_ids (ra_box s)) then settled o2 ++ [n] else settled o2) \/ 
      settled ((if bool_decide (n ∈ box_ids (ra_box s)) then [ObLeft n] else []) ++ o2) ≡ₚ
        (if bool_decide (n ∈ box_ids (ra_box s)) then settled o2 ++ [n] else settled o2) ->
      accounted s (ReGone n) (set_cur (set_box s (List.filter (drop_gone n) (ra_box s))) c')
        ((if bool_decide (n ∈ box_ids (ra_box s)) then [ObLeft n] else []) ++ o2)).
    { intros c' Hc' o2 Hw Ho. unfold accounted, inv, all_ids, waiting, set_cur, set_box.
      cbn [ra_box ra_cur ra_alive ra_next next_after].
      change (match c' with Some (n0, _, _, _) => [n0] | None => [] end) with (ids_cur c').
      change (match c' with Some (n0, _, _, true) => [n0] | _ => [] end) with (w_cur c').
      change (match ra_cur s with Some (n0, _, _, true) => [n0] | _ => [] end) with (w_cur (ra_cur s)).
      rewrite Hc'. split; [|split; [done|]].
      - assert (Hsub : sublist (ids_cur (ra_cur s) ++ (rq_id <$> List.filter (drop_gone n) (ra_box s))) (all_ids s)).
        { apply sublist_app; [done|]. apply filter_box_sublist. }
        split; [by apply (sorted_sub _ (all_ids s))|]. split.
        + rewrite Forall_forall in *. intros x Hx. apply Hb. by apply (elem_of_submseteq _ _ _ Hx), sublist_submseteq.
        + intros Hal. destruct (Hd Hal) as [Hbx Hcu]. rewrite Hbx. split; [done|]. rewrite Hcu in Hc'. by destruct c' as [[[[? ?] ?] ?]|].
      - cbn [asked_from]. rewrite app_nil_r.
        change (omap (fun q => if rq_send q then Some (rq_id q) else None)) with box_ids. rewrite box_filter_gone.
        assert (Hnb : NoDup (box_ids (ra_box s))).
        { unfold waiting in Hnd. apply NoDup_app in Hnd as (_ & _ & Hnd). exact Hnd. }
        transitivity (w_cur c' ++ List.filter (fun m => negb (m =? n)%nat) (box_ids (ra_box s)) ++
          (if bool_decide (n ∈ box_ids (ra_box s)) then settled o2 ++ [n] else settled o2)).
        2:{ rewrite <- app_assoc. do 2 apply Permutation_app_head. destruct Ho as [->|Ho]; [done|by symmetry]. }
        rewrite (filter_remove n (box_ids (ra_box s)) Hnb) at 1. rewrite Hw. rewrite <- !app_assoc. apply Permutation_app_head.
        rewrite Permutation_app_comm, <- !app_assoc. apply Permutation_app_head.
        destruct (bool_decide (n ∈ box_ids (ra_box s))); [by rewrite Permutation_app_comm|done]. }
    assert (Hset : forall c, c = ra_cur s -> set_cur (set_box s (List.filter (drop_gone n) (ra_box s))) c =
      set_box s (List.filter (drop_gone n) (ra_box s))) by (by intros c ->).
    assert (Hleft : forall o2, o2 = [] \/ o2 = [ObLeft n] -> 
      settled ((if bool_decide (n ∈ box_ids (ra_box s)) then [ObLeft n] else []) ++ o2) ≡ₚ
        (if bool_decide (n ∈ box_ids (ra_box s)) then settled o2 ++ [n] else settled o2)).
    { intros o2 [-> | ->]; by destruct (bool_decide _). }
    assert (Hnone : forall s1 o1, (set_box s (List.filter (drop_gone n) (ra_box s)),
        if bool_decide (n ∈ box_ids (ra_box s)) then [ObLeft n] else []) = (s1, o1) -> accounted s (ReGone n) s1 o1).
    { intros s1 o1 [= <- <-]. rewrite <- (Hset (ra_cur s) eq_refl).
      rewrite <- (app_nil_r (if bool_decide _ then _ else _)). apply Hgen; [done|by rewrite app_nil_r|].
      right. apply Hleft. by left. }
    destruct (ra_cur s) as [[[[m op] st] wt]|] eqn:Ec.
    + destruct wt.
      * destruct (Nat.eqb_spec m n) as [->|Hne].
        -- injection H as <- <-. apply Hgen; [done|done|]. right. apply Hleft. by right.
        -- apply Hnone. by injection H as <- <-.
      * apply Hnone. by injection H as <- <-.
    + apply Hnone. by injection H as <- <-.
  - cbn [ra_step] in H. destruct (ra_alive s) eqn:Ha; [|done]. destruct (ra_cur s) as [c|] eqn:Ec; [done|].
    destruct (ra_box s) as [|q rest] eqn:Eb; [done|].
    assert (Hrest : inv (set_box s rest)).
    { unfold inv, all_ids in *. rewrite Ec, Eb in *. cbn [set_box ra_box ra_cur ra_alive ra_next]. rewrite Ec.
      cbn [app] in *. rewrite fmap_cons in *. apply StronglySorted_inv in Hs as [Hs _]. apply Forall_cons in Hb as [_ Hb].
      split; [done|]. split; [done|]. by rewrite Ha. }
    destruct (rq_action q) as [op st|x|] eqn:Eq.
    + assert (Hdie : (s', o) = die s -> accounted s ReTake s' o).
      { intros E. pose proof (die_accounted s ReTake ltac:(done) Hinv) as Hdie. by rewrite <- E in Hdie. }
      destruct (borrowed s); [destruct k; [|done]; apply Hdie; congruence|].
      injection H as <- <-. unfold accounted. split; [|split; [done|]].
      * unfold inv, all_ids in *. rewrite Ec, Eb in *. cbn [set_cur set_box ra_box ra_cur ra_alive ra_next].
        split; [done|]. split; [done|]. by rewrite Ha.
      * unfold waiting. rewrite Ec, Eb. cbn [set_cur set_box ra_box ra_cur asked_from omap list_omap app].
        change (settled [ObCommand (rq_id q) (rc_cmd op)]) with (@nil nat). rewrite !app_nil_r.
        destruct (rq_send q); done.
    + injection H as <- <-. unfold accounted. split; [exact Hrest|]. split; [done|].
      unfold waiting. rewrite Eb. cbn [set_box ra_box ra_cur asked_from omap list_omap]. rewrite Ec, app_nil_r. cbn [app].
      destruct (rq_send q); [|by rewrite app_nil_r]. cbn. by rewrite Permutation_app_comm.
    + pose proof (die_accounted s ReTake ltac:(done) Hinv) as Hdie. injection H as <- <-. exact Hdie.
  - cbn [ra_step] in H. destruct (ra_cur s) as [[[[m op] st] wt]|] eqn:Ec; [|done].
    assert (Hdie : (s', o) = die s -> accounted s (ReReply r) s' o).
    { intros E. pose proof (die_accounted s (ReReply r) ltac:(done) Hinv) as Hdie. by rewrite <- E in Hdie. }
    assert (Hnone : inv (set_cur s None)).
    { unfold inv, all_ids in *. rewrite Ec in *. cbn [set_cur ra_box ra_cur ra_alive ra_next]. cbn [app] in *.
      apply StronglySorted_inv in Hs as [Hs _]. apply Forall_cons in Hb as [_ Hb]. split; [done|]. split; [done|].
      intros Hal. by destruct (Hd Hal). }
    destruct (rc_answer op r) as [x|]; [|apply Hdie; congruence].
    destruct wt.
    + injection H as <- <-. unfold accounted. split; [done|]. split; [done|]. unfold waiting. rewrite Ec. cbn [set_cur ra_cur ra_box asked_from].
      rewrite app_nil_r. cbn. by rewrite (Permutation_app_comm _ [m]).
    + destruct st; [apply Hdie; congruence|]. injection H as <- <-. unfold accounted. split; [done|]. split; [done|].
      unfold waiting. rewrite Ec. cbn [set_cur ra_cur ra_box asked_from]. by rewrite !app_nil_r.
  - cbn [ra_step] in H. destruct (ra_users s !! u); [done|].
    destruct (borrowed s); [destruct k; [|done]|]; injection H as <- <-; by apply quiet_accounted.
  - cbn [ra_step] in H. destruct (ra_users s !! u); [|done].
    destruct (rc_answer _ r); injection H as <- <-; by apply quiet_accounted.
  - cbn [ra_step] in H. destruct (ra_users s !! u); [|done]. injection H as <- <-; by apply quiet_accounted.
Qed.

Lemma perm_six (a1 a2 b1 b2 c1 c2 : list nat) :
  (a1 ++ a2) ++ (b1 ++ b2) ++ c1 ++ c2 ≡ₚ (a1 ++ b1 ++ c1) ++ a2 ++ b2 ++ c2.
Proof.
  rewrite <- !(app_assoc a1). apply Permutation_app_head. rewrite <- !(app_assoc b1).
  transitivity (b1 ++ a2 ++ b2 ++ c1 ++ c2); [apply Permutation_app_swap_app|]. apply Permutation_app_head.
  rewrite (app_assoc a2 b2 (c1 ++ c2)), (app_assoc a2 b2 c2). apply Permutation_app_swap_app.
Qed.
Lemma settled_app o1 o2 : settled (o1 ++ o2) ≡ₚ settled o1 ++ settled o2.
Proof. unfold settled, r_answered, r_failed, r_left. rewrite !omap_app. apply perm_six. Qed.
Lemma init_inv : inv ra_init.
Proof. split; [by constructor|]. split; [by apply Forall_nil|done]. Qed.
Lemma run_accounted k s es s' o : inv s -> ra_run k s es = Some (s', o) ->
  inv s' /\ waiting s ++ asked_from (ra_next s) es ≡ₚ waiting s' ++ settled o.
Proof.
  revert s s' o. induction es as [|e es IH]; intros s s' o Hi; cbn [ra_run]; [by intros [= <- <-]|].
  destruct (ra_step k s e) as [[s1 o1]|] eqn:E; [|done]. destruct (ra_run k s1 es) as [[s2 o2]|] eqn:E2; [|done].
  intros [= <- <-]. destruct (step_accounted k s e s1 o1 Hi E) as (Hi1 & Hn & Hp).
  destruct (IH s1 s2 o2 Hi1 E2) as (Hi2 & Hp2). split; [done|].
  rewrite asked_from_cons. change (match e with ReSend _ _ => S (ra_next s) | _ => ra_next s end) with (next_after (ra_next s) e).
  rewrite <- Hn. rewrite app_assoc, Hp, settled_app. rewrite <- app_assoc.
  rewrite (Permutation_app_comm (settled o1)), app_assoc, Hp2, <- app_assoc.
  apply Permutation_app_head, Permutation_app_comm.
Qed.
Lemma asked_sorted n es : StronglySorted lt (asked_from n es) /\ Forall (fun m => n <= m)%nat (asked_from n es).
Proof.
  revert n. induction es as [|e es IH]; intros n; [split; [by constructor|by apply Forall_nil]|].
  destruct e as [a [|]|m| |r|u op|u r|u]; cbn [asked_from]; try apply IH.
  - destruct (IH (S n)) as [H1 H2]. split.
    + constructor; [done|]. apply (Forall_impl _ _ _ H2). intros x Hx. cbn in Hx. lia.
    + apply Forall_cons. split; [lia|]. apply (Forall_impl _ _ _ H2). intros x Hx. cbn in Hx. lia.
  - destruct (IH (S n)) as [H1 H2]. split; [done|]. apply (Forall_impl _ _ _ H2). intros x Hx. cbn in Hx. lia.
Qed.

(** ** Order *)
Definition at_least (b : nat) (s : ractor) : Prop := Forall (fun n => b <= n)%nat (all_ids s) /\ (b <= ra_next s)%nat.
Lemma at_least_sub b s s' : at_least b s -> sublist (all_ids s') (all_ids s) -> (ra_next s <= ra_next s')%nat -> at_least b s'.
Proof.
  intros [H1 H2] Hs Hn. split; [|lia]. rewrite Forall_forall in *. intros x Hx. apply H1.
  by apply (elem_of_submseteq _ _ _ Hx), sublist_submseteq.
Qed.
Lemma step_answers k s e s' o b : inv s -> at_least b s -> ra_step k s e = Some (s', o) ->
  (r_answered o = [] /\ at_least b s') \/ (exists n, r_answered o = [n] /\ (b <= n)%nat /\ at_least (S n) s').
Proof.
  intros Hinv Hb H. pose proof Hinv as (Hs & Hlt & Hd).
  assert (Hdie : (s', o) = die s -> (r_answered o = [] /\ at_least b s') \/ (exists n, r_answered o = [n] /\ (b <= n)%nat /\ at_least (S n) s')).
  { intros [= -> ->]. left. rewrite answered_fails. split; [done|]. apply (at_least_sub b s); [done|apply sublist_nil_l|done]. }
  destruct e as [a w|n| |r|u op|u r|u].
  - cbn [ra_step] in H. left. destruct (ra_alive s) eqn:Ha.
    + injection H as <- <-. split; [done|]. destruct Hb as [H1 H2]. unfold at_least, all_ids in *. cbn.
      split; [|lia]. rewrite fmap_app, app_assoc. apply Forall_app. split; [done|]. by apply Forall_singleton.
    + destruct w; injection H as <- <-; (split; [done|]); apply (at_least_sub b s); cbn; done || lia.
  - left. cbn [ra_step] in H.
    assert (Hsub : forall c', ids_cur c' = ids_cur (ra_cur s) ->
      sublist (all_ids (set_cur (set_box s (List.filter (drop_gone n) (ra_box s))) c')) (all_ids s)).
    { intros c' Hc. unfold all_ids. cbn [set_cur set_box ra_cur ra_box].
      change (match c' with Some (n0, _, _, _) => [n0] | None => [] end) with (ids_cur c'). rewrite Hc.
      apply sublist_app; [done|apply filter_box_sublist]. }
    destruct (ra_cur s) as [[[[m op] st] wt]|] eqn:Ec; [destruct wt|].
    + destruct (m =? n)%nat; injection H as <- <-.
      * split; [by destruct (existsb _ _)|]. apply (at_least_sub b s); [done| |done]. by apply Hsub.
      * split; [by destruct (existsb _ _)|]. apply (at_least_sub b s); [done| |done].
        specialize (Hsub (ra_cur s)). rewrite Ec in Hsub. unfold all_ids in *. cbn in *. rewrite Ec in *. by apply Hsub.
    + injection H as <- <-. split; [by destruct (existsb _ _)|]. apply (at_least_sub b s); [done| |done].
      specialize (Hsub (ra_cur s)). rewrite Ec in Hsub. unfold all_ids in *. cbn in *. rewrite Ec in *. by apply Hsub.
    + injection H as <- <-. split; [by destruct (existsb _ _)|]. apply (at_least_sub b s); [done| |done].
      specialize (Hsub (ra_cur s)). rewrite Ec in Hsub. unfold all_ids in *. cbn in *. rewrite Ec in *. by apply Hsub.
  - cbn [ra_step] in H. destruct (ra_alive s) eqn:Ha; [|done]. destruct (ra_cur s) as [c|] eqn:Ec; [done|].
    destruct (ra_box s) as [|q rest] eqn:Eb; [done|].
    assert (Hsub : sublist (all_ids (set_box s rest)) (all_ids s)).
    { unfold all_ids. cbn [set_box ra_cur ra_box]. rewrite Ec, Eb, fmap_cons. by apply sublist_cons. }
    destruct (rq_action q) as [op st|x|] eqn:Eq.
    + destruct (borrowed s); [destruct k; [|done]; apply Hdie; congruence|]. injection H as <- <-. left. split; [done|].
      apply (at_least_sub b s); [done| |done]. unfold all_ids. cbn [set_cur set_box ra_cur ra_box]. rewrite Ec, Eb. by rewrite fmap_cons.
    + injection H as <- <-. destruct (rq_send q).
      * right. exists (rq_id q). split; [done|]. destruct Hb as [H1 H2]. unfold all_ids in H1, Hs, Hlt. rewrite Ec, Eb, fmap_cons in *.
        cbn [app] in *. apply StronglySorted_inv in Hs as [_ Hs]. apply Forall_cons in H1 as [H1 _]. apply Forall_cons in Hlt as [Hlt _].
        split; [done|]. unfold at_least, all_ids. cbn [set_box ra_cur ra_box ra_next]. rewrite Ec. cbn [app]. split; [|lia].
        apply (Forall_impl _ _ _ Hs). intros y Hy. lia.
      * left. split; [done|]. by apply (at_least_sub b s).
    + apply Hdie. congruence.
  - cbn [ra_step] in H. destruct (ra_cur s) as [[[[m op] st] wt]|] eqn:Ec; [|done].
    destruct (rc_answer op r) as [x|]; [|apply Hdie; congruence].
    assert (Hsub : sublist (all_ids (set_cur s None)) (all_ids s)).
    { unfold all_ids. cbn [set_cur ra_cur ra_box]. rewrite Ec. cbn [app]. by apply sublist_cons. }
    destruct wt.
    + injection H as <- <-. right. exists m. split; [done|]. destruct Hb as [H1 H2]. unfold all_ids in H1, Hs, Hlt. rewrite Ec in *.
      cbn [app] in *. apply StronglySorted_inv in Hs as [_ Hs]. apply Forall_cons in H1 as [H1 _]. apply Forall_cons in Hlt as [Hlt _].
      split; [done|]. unfold at_least, all_ids. cbn [set_cur ra_cur ra_box ra_next app]. split; [|lia].
      apply (Forall_impl _ _ _ Hs). intros y Hy. lia.
    + destruct st; [apply Hdie; congruence|]. injection H as <- <-. left. split; [done|]. by apply (at_least_sub b s).
  - cbn [ra_step] in H. left. destruct (ra_users s !! u); [done|].
    destruct (borrowed s); [destruct k; [|done]|]; injection H as <- <-; (split; [done|]); by apply (at_least_sub b s).
  - cbn [ra_step] in H. left. destruct (ra_users s !! u); [|done].
    destruct (rc_answer _ r); injection H as <- <-; (split; [done|]); by apply (at_least_sub b s).
  - cbn [ra_step] in H. left. destruct (ra_users s !! u); [|done]. injection H as <- <-; (split; [done|]); by apply (at_least_sub b s).
Qed.
Lemma run_answers k s es s' o b : inv s -> at_least b s -> ra_run k s es = Some (s', o) ->
  StronglySorted lt (r_answered o) /\ Forall (fun n => b <= n)%nat (r_answered o).
Proof.
  revert s s' o b. induction es as [|e es IH]; intros s s' o b Hi Hb; cbn [ra_run].
  - intros [= <- <-]. split; [by constructor|by apply Forall_nil].
  - destruct (ra_step k s e) as [[s1 o1]|] eqn:E; [|done]. destruct (ra_run k s1 es) as [[s2 o2]|] eqn:E2; [|done].
    intros [= <- <-]. pose proof (proj1 (step_accounted k s e s1 o1 Hi E)) as Hi1.
    unfold r_answered. rewrite omap_app. change (omap _ o1) with (r_answered o1). change (omap _ o2) with (r_answered o2).
    destruct (step_answers k s e s1 o1 b Hi Hb E) as [[-> Hb1]|(n & -> & Hle & Hb1)].
    + by apply (IH s1 s2 o2 b).
    + destruct (IH s1 s2 o2 (S n) Hi1 Hb1 E2) as [H1 H2]. cbn [app]. split.
      * constructor; [done|]. apply (Forall_impl _ _ _ H2). intros y Hy. cbn in Hy. lia.
      * apply Forall_cons. split; [done|]. apply (Forall_impl _ _ _ H2). intros y Hy. cbn in Hy. lia.
Qed.

(** ** Survival *)
Section survival.
  Context (k : conn) (GoodR : list string -> rreply -> Prop) (pat : bool).
  Definition good_action (a : action) : Prop :=
    match a with
    | AcPanic => False
    | AcNow _ => True
    | AcCommand op st => (forall r, GoodR (rc_cmd op) r -> rc_answer op r <> Panic) /\ (st = true -> pat = true)
    end.
  Definition good_event (e : revent) : Prop :=
    match e with
    | ReSend a w => good_action a /\ (pat = true -> w = true)
    | ReGone _ => pat = false
    | ReUser _ _ => k = Cluster
    | _ => True
    end.
  Definition healthy (s : ractor) : Prop :=
    ra_alive s = true /\ (k = Cluster \/ ra_users s = ∅) /\
    Forall (fun q => good_action (rq_action q) /\ (pat = true -> rq_send q = true)) (ra_box s) /\
    match ra_cur s with
    | Some (_, op, st, w) => (forall r, GoodR (rc_cmd op) r -> rc_answer op r <> Panic) /\ (st = true -> w = true /\ pat = true)
    | None => True
    end.
  Lemma healthy_step s e s' o : healthy s -> good_event e ->
    (forall r n op st w, e = ReReply r -> ra_cur s = Some (n, op, st, w) -> GoodR (rc_cmd op) r) ->
    ra_step k s e = Some (s', o) ->
    healthy s' /\ ObDied ∉ o /\ r_failed o = [].
  Proof.
    intros (Ha & Hu & Hb & Hc) He Hg H. destruct e as [a w|n| |r|u op|u r|u]; cbn [ra_step good_event] in *.
    - rewrite Ha in H. injection H as <- <-. split; [|split; [apply not_elem_of_nil|done]]. split; [done|]. split; [done|]. split; [|done].
      cbn. apply Forall_app. split; [done|]. by apply Forall_singleton.
    - assert (Hf : Forall (fun q => good_action (rq_action q) /\ (pat = true -> rq_send q = true))
        (List.filter (drop_gone n) (ra_box s))).
      { rewrite Forall_forall in *. intros q Hq. apply elem_of_list_In, filter_In in Hq as [Hq _].
        apply elem_of_list_In in Hq. by apply Hb. }
      assert (Hoo : forall x, x = [] \/ x = [ObLeft n] ->
        ObDied ∉ (if existsb (fun q => negb (drop_gone n q)) (ra_box s) then [ObLeft n] else []) ++ x /\
        r_failed ((if existsb (fun q => negb (drop_gone n q)) (ra_box s) then [ObLeft n] else []) ++ x) = []).
      { intros x Hx. destruct (existsb _ _), Hx as [-> | ->]; (split; [|done]); cbn [app];
          repeat (apply not_elem_of_cons; split; [done|]); apply not_elem_of_nil. }
      destruct (ra_cur s) as [[[[m op] st] [|]]|] eqn:Ec; [destruct (m =? n)%nat| |]; injection H as <- <-.
      + split; [|apply Hoo; by right]. split; [done|]. split; [done|]. split; [exact Hf|]. cbn. split; [apply Hc|].
        intros Hst. destruct Hc as [_ Hc]. destruct (Hc Hst) as [_ Hp]. congruence.
      + split; [|rewrite <- (app_nil_r (if existsb _ _ then _ else _)); apply Hoo; by left].
        split; [done|]. split; [done|]. split; [exact Hf|]. cbn. by rewrite Ec.
      + split; [|rewrite <- (app_nil_r (if existsb _ _ then _ else _)); apply Hoo; by left].
        split; [done|]. split; [done|]. split; [exact Hf|]. cbn. by rewrite Ec.
      + split; [|rewrite <- (app_nil_r (if existsb _ _ then _ else _)); apply Hoo; by left].
        split; [done|]. split; [done|]. split; [exact Hf|]. cbn. by rewrite Ec.
    - rewrite Ha in H. destruct (ra_cur s) as [c|] eqn:Ec; [done|]. destruct (ra_box s) as [|q rest] eqn:Eb; [done|].
      apply Forall_cons in Hb as [[Hq1 Hq2] Hb]. destruct (rq_action q) as [op st|x|] eqn:Eq; [| |done].
      + destruct (borrowed s) eqn:Ebw.
        * destruct k; [|done]. destruct Hu as [Hu|Hu]; [done|]. unfold borrowed in Ebw. rewrite Ec, Hu in Ebw.
          by apply bool_decide_eq_true in Ebw.
        * injection H as <- <-. destruct Hq1 as [Hq1 Hst]. split.
          -- split; [done|]. split; [done|]. split; [exact Hb|]. cbn. split; [done|]. intros E. split; auto.
          -- split; [|done]. apply not_elem_of_cons. split; [done|apply not_elem_of_nil].
      + injection H as <- <-. split.
        * split; [done|]. split; [done|]. split; [exact Hb|]. cbn. by rewrite Ec.
        * destruct (rq_send q); (split; [|done]); [|apply not_elem_of_nil].
          apply not_elem_of_cons. split; [done|apply not_elem_of_nil].
    - destruct (ra_cur s) as [[[[m op] st] w]|] eqn:Ec; [|done]. destruct Hc as [Hc1 Hc2].
      specialize (Hc1 r (Hg r m op st w eq_refl eq_refl)). destruct (rc_answer op r) as [x|]; [|done].
      assert (Hn : healthy (set_cur s None)) by (split; [done|]; split; [done|]; split; done).
      destruct w.
      + injection H as <- <-. split; [done|]. split; [|done]. apply not_elem_of_cons. split; [done|apply not_elem_of_nil].
      + destruct st; [by destruct (Hc2 eq_refl)|]. injection H as <- <-. split; [done|]. split; [apply not_elem_of_nil|done].
    - destruct (ra_users s !! u); [done|]. destruct (borrowed s); [by rewrite He in H|]. injection H as <- <-.
      split; [split; [done|]; split; [by left|]; split; [done|exact Hc]|]. split; [|done].
      apply not_elem_of_cons. split; [done|apply not_elem_of_nil].
    - destruct (ra_users s !! u) eqn:Eu; [|done]. 
      assert (Hn : healthy (set_users s (delete u (ra_users s)))).
      { split; [done|]. split; [|split; [done|exact Hc]]. destruct Hu as [Hu|Hu]; [by left|]. rewrite Hu in Eu. by rewrite lookup_empty in Eu. }
      destruct (rc_answer _ r); injection H as <- <-; (split; [exact Hn|]); (split; [|done]);
      (apply not_elem_of_cons; split; [done|apply not_elem_of_nil]).
    - destruct (ra_users s !! u) eqn:Eu; [|done]. injection H as <- <-. split; [|split; [apply not_elem_of_nil|done]].
      split; [done|]. split; [|split; [done|exact Hc]]. destruct Hu as [Hu|Hu]; [by left|]. rewrite Hu in Eu. by rewrite lookup_empty in Eu.
  Qed.
  (** the command in flight is the last one sent *)
  Definition linked (s : ractor) (o : list robs) : Prop :=
    match ra_cur s with Some (_, op, _, _) => last_command o = Some (rc_cmd op) | None => True end.
  Definition no_command (o : list robs) : Prop := Forall (fun x => forall n c, x <> ObCommand n c) o.
  Lemma last_command_app o1 o2 : no_command o2 -> last_command (o1 ++ o2) = last_command o1.
  Proof.
    intros H. unfold last_command. rewrite omap_app.
    assert (omap (fun o => match o with ObCommand _ c => Some c | _ => None end) o2 = []) as ->; [|by rewrite app_nil_r].
    induction H as [|x l Hx Hl IH]; [done|]. cbn [omap list_omap]. rewrite IH. destruct x; try done. by destruct (Hx n cmd).
  Qed.
  Lemma linked_step s e s' o1 o : linked s o1 -> ra_step k s e = Some (s', o) -> linked s' (o1 ++ o).
  Proof.
    intros Hl H.
    assert (Hkeep : forall t, ra_cur t = ra_cur s -> no_command o -> linked t (o1 ++ o)).
    { intros t Ht Hn. unfold linked in *. rewrite Ht. destruct (ra_cur s) as [[[[n op] st] w]|]; [|done].
      by rewrite last_command_app. }
    destruct e as [a w|n| |r|u op|u r|u]; cbn [ra_step] in H.
    - destruct (ra_alive s); injection H as <- <-; apply Hkeep; try done; [by apply Forall_nil|].
      destruct w; [by apply Forall_singleton|by apply Forall_nil].
    - assert (Hn : forall l : list rreq, no_command (if existsb (fun q => negb (drop_gone n q)) l then [ObLeft n] else [])).
      { intros l. destruct (existsb _ l); [by apply Forall_singleton|by apply Forall_nil]. }
      destruct (ra_cur s) as [[[[m op] st] [|]]|] eqn:Ec; [destruct (m =? n)%nat|..]; injection H as <- <-.
      + unfold linked in *. cbn. rewrite Ec in Hl. rewrite last_command_app; [done|].
        apply Forall_app. split; [apply Hn|by apply Forall_singleton].
      + apply Hkeep; [done|apply Hn].
      + apply Hkeep; [done|apply Hn].
      + apply Hkeep; [done|apply Hn].
    - destruct (ra_alive s); [|done]. destruct (ra_cur s) eqn:Ec; [done|]. destruct (ra_box s) as [|q rest]; [done|].
      destruct (rq_action q) as [op st|x|].
      + destruct (borrowed s).
        * destruct k; [|done]. by injection H as <- <-.
        * injection H as <- <-. unfold linked. cbn. unfold last_command. rewrite omap_app. cbn [omap list_omap].
          by rewrite last_snoc.
      + injection H as <- <-. unfold linked. cbn. by rewrite Ec.
      + by injection H as <- <-.
    - destruct (ra_cur s) as [[[[m op] st] w]|]; [|done]. destruct (rc_answer op r).
      + destruct w; [by injection H as <- <-|]. destruct st; by injection H as <- <-.
      + by injection H as <- <-.
    - destruct (ra_users s !! u); [done|]. destruct (borrowed s).
      + destruct k; [|done]. injection H as <- <-. apply Hkeep; [done|by apply Forall_singleton].
      + injection H as <- <-. apply Hkeep; [done|by apply Forall_singleton].
    - destruct (ra_users s !! u) as [op|]; [|done]. destruct (rc_answer op r); injection H as <- <-; (apply Hkeep; [done|by apply Forall_singleton]).
    - destruct (ra_users s !! u) as [op|]; [|done]. injection H as <- <-. apply Hkeep; [done|by apply Forall_nil].
  Qed.
  Lemma healthy_run_from es0 s o0 es s' o : ra_run k ra_init es0 = Some (s, o0) -> linked s o0 ->
    replies GoodR k (es0 ++ es) -> healthy s -> Forall good_event es -> ra_run k s es = Some (s', o) ->
    healthy s' /\ ObDied ∉ o /\ r_failed o = [].
  Proof.
    revert es0 o0 s s' o. induction es as [|e es IH]; intros es0 o0 s s' o H0 Hl Hr Hh He; cbn [ra_run].
    - intros [= <- <-]. split; [done|]. split; [apply not_elem_of_nil|done].
    - apply Forall_cons in He as [He1 He2]. destruct (ra_step k s e) as [[s1 o1]|] eqn:E; [|done].
      destruct (ra_run k s1 es) as [[s2 o2]|] eqn:E2; [|done]. intros [= <- <-].
      assert (Hg : forall r n op st w, e = ReReply r -> ra_cur s = Some (n, op, st, w) -> GoodR (rc_cmd op) r).
      { intros r n op st w -> Hc. apply (Hr es0 r es s o0); [done|done|]. unfold linked in Hl. by rewrite Hc in Hl. }
      destruct (healthy_step s e s1 o1 Hh He1 Hg E) as (Hh1 & Hd1 & Hf1).
      destruct (IH (es0 ++ [e]) (o0 ++ o1) s1 s2 o2) as (Hh2 & Hd2 & Hf2); try done.
      { rewrite ra_run_app, H0. cbn [ra_run]. rewrite E. by rewrite app_nil_r. }
      { by apply (linked_step s e). }
      { by rewrite <- app_assoc. }
      split; [done|]. split; [by apply not_elem_of_app|]. unfold r_failed in *. by rewrite omap_app, Hf1, Hf2.
  Qed.
  Lemma healthy_init : healthy ra_init.
  Proof. split; [done|]. split; [by right|]. split; [by apply Forall_nil|done]. Qed.
  Lemma healthy_run es s o : replies GoodR k es -> Forall good_event es -> ra_run k ra_init es = Some (s, o) ->
    healthy s /\ ObDied ∉ o /\ r_failed o = [].
  Proof. intros Hr He H. apply (healthy_run_from [] ra_init [] es); try done. apply healthy_init. Qed.
End survival.
