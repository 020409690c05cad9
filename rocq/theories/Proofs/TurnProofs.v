(** How much service a call on an in-memory System needs. *)
From Coq Require Import ZifyBool ZifyN ZifyNat Lia.
From Verif Require Import Model.Base Model.Defense Model.MCaptcha Model.Counter Model.Master
  Model.HashCache Model.Queue Model.Pow Model.System
  Spec.CacheSpec Spec.QueueSpec Spec.MasterSpec Spec.SystemSpec Spec.ExecutorSpec Spec.TurnSpec
  Proofs.CacheProofs Proofs.QueueProofs Proofs.MasterProofs Proofs.MasterTasks Proofs.SystemProofs
  Proofs.SystemHistory Proofs.SystemLiveness Proofs.SystemProgress Proofs.QueueTheorems.
Local Open Scope nat_scope.

(** * Sums over the jobs in the queue *)
Definition wsum (f : job -> nat) (l : list job) : nat := list_sum (f <$> l).
Lemma wsum_app f a b : wsum f (a ++ b) = wsum f a + wsum f b.
Proof. unfold wsum. by rewrite fmap_app, list_sum_app. Qed.
Lemma wsum_cons f x a : wsum f (x :: a) = f x + wsum f a.
Proof. done. Qed.
Lemma wsum_perm f a b : a ≡ₚ b -> wsum f a = wsum f b.
Proof. induction 1; rewrite ?wsum_cons; lia. Qed.
Lemma wsum_le f g a : (forall x, x ∈ a -> f x <= g x) -> wsum f a <= wsum g a.
Proof.
  induction a as [|x a IH]; intros H; [done|]. rewrite !wsum_cons. pose proof (H x ltac:(by left)).
  assert (wsum f a <= wsum g a) by (apply IH; intros y Hy; apply H; by right). lia.
Qed.
Lemma wsum_lt f g a x : x ∈ a -> (forall x, x ∈ a -> f x <= g x) -> f x < g x -> wsum f a + 1 <= wsum g a.
Proof.
  induction a as [|y a IH]; intros Hx H Hlt; [by apply elem_of_nil in Hx|]. rewrite !wsum_cons.
  pose proof (H y ltac:(by left)). assert (forall z, z ∈ a -> f z <= g z) as Ha by (intros z Hz; apply H; by right).
  apply elem_of_cons in Hx as [->|Hx].
  - pose proof (wsum_le f g a Ha). lia.
  - specialize (IH Hx Ha Hlt). lia.
Qed.
Lemma wsum_bound f a k : (forall x, x ∈ a -> f x <= k) -> wsum f a <= k * length a.
Proof.
  induction a as [|x a IH]; intros H; [change (wsum f []) with 0; lia|]. rewrite wsum_cons. pose proof (H x ltac:(by left)).
  assert (wsum f a <= k * length a) by (apply IH; intros y Hy; apply H; by right). cbn [length]. lia.
Qed.

Definition impot (f g : job -> nat) (im : inner) : nat :=
  wsum f (waiting (im_queues im)) + wsum f (concat ((fun r => proves (rn_chan r)) <$> im_runners im)) +
  wsum g (concat ((fun r => running (rn_state r)) <$> im_runners im)).
Definition pot (f g : job -> nat) (q : qsys) : nat :=
  wsum f (sched_ids (qs_inbox q)) + impot f g (qs_im q).
Lemma wsum_upd {A} f (h : A -> list job) (rs : list A) r x x' :
  rs !! r = Some x -> wsum f (concat (h <$> <[r := x']> rs)) + wsum f (h x) = wsum f (concat (h <$> rs)) + wsum f (h x').
Proof.
  intros Hr. destruct (upd_split _ _ _ Hr) as (l1 & l2 & E & E'). rewrite E', E.
  rewrite !fmap_app, !concat_app. cbn [fmap list_fmap concat]. rewrite !wsum_app. lia.
Qed.
Lemma waiting_pop_perm m ip k rest : m !! ip = Some (k :: rest) -> waiting m ≡ₚ k :: waiting (<[ip := rest]> m).
Proof.
  intros Hm. apply cnt_perm. intros j. pose proof (waiting_insert m ip (k :: rest) rest j Hm) as H.
  change (k :: rest) with ([k] ++ rest) in H. rewrite cnt_app in H.
  change (k :: waiting (<[ip := rest]> m)) with ([k] ++ waiting (<[ip := rest]> m)). rewrite cnt_app. lia.
Qed.
Lemma waiting_push_perm m ip k : waiting (<[ip := default [] (m !! ip) ++ [k]]> m) ≡ₚ k :: waiting m.
Proof.
  apply cnt_perm. intros j. rewrite waiting_push. change (k :: waiting m) with ([k] ++ waiting m). rewrite cnt_app. lia.
Qed.
Lemma dstep_pot f g im name o im' : dstep im name o im' -> impot f g im' = impot f g im.
Proof.
  intros [r ip work rest Hr _ _ _ Hq|r ip _ _ _ _]; [|done]. unfold impot. cbn [im_queues im_runners].
  rewrite (wsum_perm f _ _ (waiting_pop_perm _ _ _ _ Hq)), wsum_cons, (alter_insert _ _ _ _ Hr).
  pose proof (wsum_upd f (fun r => proves (rn_chan r)) _ _ _ (rn_send (RmProve work) r) Hr) as E1.
  pose proof (wsum_upd g (fun r => running (rn_state r)) _ _ _ (rn_send (RmProve work) r) Hr) as E2.
  cbn [rn_send rn_chan rn_state] in E1, E2. rewrite proves_app, wsum_app in E1. cbn [proves omap list_omap] in E1.
  rewrite wsum_cons in E1. change (wsum f []) with 0 in E1. cbn [rn_send] in *. lia.
Qed.
Lemma dsteps_pot f g im names o im' : dsteps im names o im' -> impot f g im' = impot f g im.
Proof. induction 1 as [|im name o im1 names o' im2 Hd _ IH]; [done|]. by rewrite IH, (dstep_pot _ _ _ _ _ _ Hd). Qed.
Lemma sched_ids_app a b : sched_ids (a ++ b) = sched_ids a ++ sched_ids b.
Proof. apply omap_app. Qed.

(** What the queue's own steps do to it. *)
Lemma pot_add f g q ip q' o : qcase q (QeAdd ip) q' o -> pot f g q' = pot f g q + f (qs_next q).
Proof.
  inversion 1; subst. unfold pot. cbn [qs_inbox qs_im]. rewrite sched_ids_app, wsum_app. cbn [sched_ids omap list_omap].
  rewrite wsum_cons. change (wsum f []) with 0. lia.
Qed.
Lemma pot_manager f g q q' o : qs_dropped q = false -> (forall m, m ∈ qs_inbox q -> ~ is_stop m) ->
  qcase q QeManager q' o -> pot f g q' <= pot f g q.
Proof.
  intros Hd Hns H. unfold pot.
  inversion H as [ |rest Ha Hin|name rest o' im Ha Hin Hne Hds|name rest Ha Hin Hge|j ip rest Ha Hin Hl
    |j ip rest im1 o' im2 Ha Hin Hl Him1 Hok1 Hne1 Hds| | | | | ]; subst; cbn [qs_inbox qs_im]; rewrite Hin in Hns |- *.
  - exfalso. by apply (Hns ImStop); [left|].
  - cbn [sched_ids omap list_omap]. fold (sched_ids rest). by rewrite (dstep_pot _ _ _ _ _ _ Hds).
  - done.
  - cbn [sched_ids omap list_omap]. fold (sched_ids rest). rewrite wsum_cons. lia.
  - cbn [sched_ids omap list_omap]. fold (sched_ids rest). rewrite wsum_cons, (dsteps_pot _ _ _ _ _ _ Hds).
    unfold impot. cbn [im_queues im_runners]. rewrite (wsum_perm f _ _ (waiting_push_perm _ _ _)), wsum_cons. lia.
Qed.
Lemma pot_recv f g q r q' o : qcase q (QeRecv r) q' o ->
  (exists c, im_runners (qs_im q) !! r = Some (Runner (RmStop :: c) RIdle) /\ pot f g q' = pot f g q) \/
  exists j c, im_runners (qs_im q) !! r = Some (Runner (RmProve j :: c) RIdle) /\ pot f g q' + f j = pot f g q + g j.
Proof.
  intros H. unfold pot.
  inversion H as [ | | | | | |r' c Hrr|r' j c Hrr| | | ]; subst; cbn [set_runner qs_inbox qs_im with_runners im_runners];
    unfold impot; cbn [im_queues im_runners];
    [pose proof (wsum_upd f (fun r => proves (rn_chan r)) _ _ _ (Runner c RExited) Hrr) as E1;
     pose proof (wsum_upd g (fun r => running (rn_state r)) _ _ _ (Runner c RExited) Hrr) as E2
    |pose proof (wsum_upd f (fun r => proves (rn_chan r)) _ _ _ (Runner c (RRunning j)) Hrr) as E1;
     pose proof (wsum_upd g (fun r => running (rn_state r)) _ _ _ (Runner c (RRunning j)) Hrr) as E2];
    cbn [rn_chan rn_state proves omap list_omap running] in E1, E2; fold (proves c) in E1;
    rewrite ?wsum_cons in E1; rewrite ?wsum_cons in E2; change (wsum g []) with 0 in E2.
  - left. exists c. split; [done|]. cbn [with_runners im_queues im_runners]. lia.
  - right. exists j, c. split; [done|]. cbn [with_runners im_queues im_runners]. lia.
Qed.
Lemma pot_finish f g q r q' o : qcase q (QeFinish r) q' o ->
  exists j, running_job q r = Some j /\ pot f g q' + g j = pot f g q.
Proof.
  intros H. unfold pot.
  inversion H as [ | | | | | | | |r' j c Hrr Hm| | ]; subst. exists j. split; [unfold running_job; by rewrite Hrr|].
  cbn [set_runner qs_inbox qs_im with_runners im_runners]. rewrite sched_ids_app. cbn [sched_ids omap list_omap]. rewrite app_nil_r.
  unfold impot. cbn [with_runners im_queues im_runners].
  pose proof (wsum_upd f (fun r => proves (rn_chan r)) _ _ _ (Runner c RIdle) Hrr) as E1.
  pose proof (wsum_upd g (fun r => running (rn_state r)) _ _ _ (Runner c RIdle) Hrr) as E2.
  cbn [rn_chan rn_state proves omap list_omap running] in E1, E2. rewrite ?wsum_cons in E2. change (wsum g []) with 0 in E2. lia.
Qed.

(** * First come, first served *)
(** With enough runners, jobs are handed out in the order of acceptance. *)
Lemma distinct_mono a b : distinct_ips a <= distinct_ips (a ++ b).
Proof.
  unfold distinct_ips. rewrite accepted_app, fmap_app. apply submseteq_length, NoDup_submseteq; [apply NoDup_remove_dups|].
  intros x. rewrite !elem_of_remove_dups, elem_of_app. tauto.
Qed.
Lemma accepted_short s e s' o : qcase s e s' o -> length (accepted o) <= 1.
Proof.
  intros [ip Hd|rest Ha Hin|name rest o' im Ha Hin Hne Hds|name rest Ha Hin Hge|j ip rest Ha Hin Hl
    |j ip rest im1 o' im2 Ha Hin Hl Him1 Hok1 Hne1 Hds| | | | | ]; cbn; try lia.
  - destruct (dstep_silent _ _ _ _ Hds) as (-> & _). cbn. lia.
  - rewrite accepted_app. destruct (dsteps_silent _ _ _ _ Hds) as (-> & _). cbn. lia.
Qed.
Lemma handed_in_order p w q es s tr :
  no_job_panics es -> q_run p (q_start w q) es = Some (s, tr) -> distinct_ips tr <= w ->
  hjobs tr = (accepted tr).*2.
Proof.
  revert s tr. induction es as [|e es IH] using rev_ind; intros s tr Hnp Hr Hle.
  - by injection Hr as <- <-.
  - pose proof (c45_enough_runners _ _ _ _ _ _ Hnp Hr Hle) as [_ Hp].
    apply Forall_app in Hnp as [Hnp He]. rewrite Forall_singleton in He.
    apply q_run_snoc in Hr as (s1 & tr1 & o & Hr & Hs & ->).
    destruct (run_tinv _ _ _ _ _ _ Hnp Hr) as [Hi _].
    pose proof (accepted_short _ _ _ _ (step_case _ _ _ _ _ _ _ Hi He Hs)) as Hl.
    assert (hjobs tr1 = (accepted tr1).*2) as E by (eapply IH; [done..|]; pose proof (distinct_mono tr1 o); lia).
    change ((fun x : nat * (string * job) => x.2.2) <$> handed (tr1 ++ o)) with (hjobs (tr1 ++ o)) in Hp.
    rewrite hjobs_app, accepted_app, fmap_app, E in Hp |- *. f_equal.
    apply Permutation_app_inv_l in Hp.
    destruct (accepted o) as [|[ip j] [|? ?]]; [|by apply Permutation_singleton_l in Hp|cbn in Hl; lia].
    by apply Permutation_nil_l in Hp.
Qed.
Inductive sorted : list job -> Prop :=
| so_nil : sorted []
| so_cons x l : (forall y, y ∈ l -> x < y) -> sorted l -> sorted (x :: l).
Lemma sorted_sublist l k : l `sublist_of` k -> sorted k -> sorted l.
Proof.
  induction 1 as [|x l k Hs IH|x l k Hs IH]; intros H; [done|inversion H; subst..].
  - constructor; [|by apply IH]. intros y Hy. apply H2. eapply elem_of_submseteq; [exact Hy|by apply sublist_submseteq].
  - by apply IH.
Qed.
Lemma sorted_seq a n : sorted (seq a n).
Proof. revert a. induction n as [|n IH]; intros a; constructor; [|done]. intros y Hy%elem_of_seq. lia. Qed.
Lemma of_runner_sublist r tr : of_runner r (hrun tr) `sublist_of` hjobs tr.
Proof.
  unfold of_runner, hrun, hjobs. induction (handed tr) as [|[r' [ip j]] l IH]; [constructor|]. cbn. destruct (decide _); by constructor.
Qed.
Section fifo.
Context (p : profile) (w : nat) (q : N) (es : list qevent) (s : qsys) (tr : list qout).
Context (Hnp : no_job_panics es) (Hr : q_run p (q_start w q) es = Some (s, tr)).
Lemma answered_sorted : sorted (answered tr).
Proof using Hnp Hr.
  pose proof (run_answers _ _ _ _ _ _ Hnp Hr) as H. apply (sorted_sublist _ (seq 0 (qs_next s))); [|apply sorted_seq].
  rewrite <- H. by apply sublist_inserts_r.
Qed.
Lemma runner_sorted r x : distinct_ips tr <= w -> im_runners (qs_im s) !! r = Some x ->
  sorted (running (rn_state x) ++ proves (rn_chan x)).
Proof using Hnp Hr.
  intros Hle Hx. destruct (run_tinv _ _ _ _ _ _ Hnp Hr) as [_ Ht].
  apply (sorted_sublist _ (answered tr)); [|apply answered_sorted].
  etrans; [|apply accepted_sublist]. rewrite <- (handed_in_order _ _ _ _ _ _ Hnp Hr Hle).
  etrans; [|apply (of_runner_sublist r)]. rewrite (ti_runner _ _ _ Ht _ _ Hx). by apply sublist_inserts_l.
Qed.
End fifo.
Lemma running_first q r x j i : im_runners (qs_im q) !! r = Some x -> sorted (running (rn_state x) ++ proves (rn_chan x)) ->
  holds q r j = true -> running_job q r = Some i -> i <= j.
Proof.
  unfold holds, running_job. intros -> Hs Hh Hi. apply bool_decide_eq_true in Hh. destruct x as [c st]. cbn [rn_state rn_chan] in *.
  destruct st; try done. injection Hi as ->. cbn [running] in *. inversion Hs; subst.
  apply elem_of_cons in Hh as [->|Hh]; [done|]. specialize (H1 _ Hh). lia.
Qed.
Lemma next_first q r j i c : im_runners (qs_im q) !! r = Some (Runner (RmProve i :: c) RIdle) -> sorted (i :: proves c) ->
  holds q r j = true -> i <= j.
Proof.
  unfold holds. intros -> Hs Hh. apply bool_decide_eq_true in Hh. cbn [rn_state rn_chan running app proves omap list_omap] in Hh.
  fold (proves c) in Hh. inversion Hs; subst. apply elem_of_cons in Hh as [->|Hh]; [done|]. specialize (H1 _ Hh). lia.
Qed.

(** * Consequences of decency and of few callers *)
Lemma decent_mono l a b : all_decent l (a ++ b) -> all_decent l a.
Proof. intros H n w ip Hc. apply (H n w ip). unfold called in *. apply elem_of_app. by left. Qed.
Lemma callers_mono a b : length (callers a) <= length (callers (a ++ b)).
Proof.
  unfold callers. apply submseteq_length, NoDup_submseteq; [apply NoDup_remove_dups|].
  intros x. rewrite !elem_of_remove_dups, omap_app, elem_of_app. tauto.
Qed.
Lemma manageable_mono l wk a b : manageable l wk (a ++ b) -> manageable l wk a.
Proof. intros [H1 H2]. split; [by eapply decent_mono|]. pose proof (callers_mono a b). lia. Qed.

Section reached.
Context (p : profile) (l : pow_lib) (t gc : N) (wk : nat) (ql : N).
Local Notation reach es s tr := (s_run p l (sys_start t gc wk ql) es = Some (s, tr)).

Lemma decent_job es s tr j v : reach es s tr -> all_decent l tr -> sy_jobs s !! j = Some v ->
  vj_returns v = true /\ length (vj_todo v) <= 2.
Proof.
  intros Hr Hd Hv. destruct (run_jinv _ _ _ _ _ _ _ _ _ Hr _ _ Hv) as [(n & w & ip & d & pre & Hc & Hs & _) _].
  destruct (script_decent l w d (Hd _ _ _ Hc)) as (bs & Hbs & _ & Hlen). rewrite Hs in Hbs. injection Hbs as Hbs Hret.
  split; [done|]. rewrite <- Hbs, app_length in Hlen. lia.
Qed.
Lemma decent_calm es s tr : reach es s tr -> all_decent l tr -> ~ check_panicked tr.
Proof.
  revert s tr. induction es as [|e es IH] using rev_ind; intros s tr Hr Hd.
  - injection Hr as <- <-. by intros [r H%elem_of_nil].
  - apply s_run_snoc in Hr as (s1 & tr1 & o & H1 & H2 & ->). pose proof (decent_mono _ _ _ Hd) as Hd1.
    intros [r Hx]. rewrite qtrace_app, elem_of_app in Hx. destruct Hx as [Hx|Hx]; [apply (IH _ _ H1 Hd1); by exists r|].
    apply s_step_case in H2. destruct H2; cbn in Hx;
      try (by apply elem_of_nil in Hx); try (by apply elem_of_list_singleton in Hx).
    destruct (decent_job _ _ _ _ _ H1 Hd1 H0) as [Hret _]. congruence.
Qed.
Lemma add_called es s tr ip : reach es s tr -> QeAdd ip ∈ qtrace tr -> exists n w, called tr n (CVerifyPow w ip).
Proof.
  revert s tr. induction es as [|e es IH] using rev_ind; intros s tr Hr Hx.
  - injection Hr as <- <-. by apply elem_of_nil in Hx.
  - apply s_run_snoc in Hr as (s1 & tr1 & o & H1 & H2 & ->). rewrite qtrace_app, elem_of_app in Hx. destruct Hx as [Hx|Hx].
    { destruct (IH _ _ H1 Hx) as (n & w & H). exists n, w. unfold called in *. apply elem_of_app. by left. }
    apply s_step_case in H2. destruct H2; cbn in Hx;
      try (by apply elem_of_nil in Hx); try (by apply elem_of_list_singleton in Hx).
    apply elem_of_list_singleton in Hx. injection Hx as ->.
    destruct (si_log _ _ _ _ _ _ (run_sinv _ _ _ _ _ _ _ _ _ H1) _ _ H) as [Hl _]. exists n, w.
    unfold called. apply elem_of_app. left.
    assert (SoCall n (CVerifyPow w ip0) ∈ of_client n tr1) as [_ Hy]%elem_of_of_client; [|done]. rewrite Hl. by left.
Qed.
Lemma few_ips es s tr : reach es s tr -> manageable l wk tr -> distinct_ips (qouts tr) <= wk.
Proof.
  intros Hr [Hd Hle]. etrans; [|exact Hle]. pose proof (decent_calm _ _ _ Hr Hd) as Hn.
  pose proof (run_sinv _ _ _ _ _ _ _ _ _ Hr) as Hi.
  destruct (run_calls _ _ _ _ _ _ (no_panics_of _ Hn) (si_q _ _ _ _ _ _ Hi)) as (_ & Hc & _).
  unfold distinct_ips, callers. apply submseteq_length, NoDup_submseteq; [apply NoDup_remove_dups|].
  intros ip. rewrite !elem_of_remove_dups. intros ([ip' j] & -> & Ha)%elem_of_list_fmap. cbn [fst].
  assert ((j, ip') ∈ calls (qtrace tr)) as Hin.
  { rewrite <- Hc. apply elem_of_app. left. unfold accepted in Ha. apply elem_of_list_omap in Ha as (x & Hx & Ex).
    unfold answered_calls. apply elem_of_list_omap. exists x. split; [done|]. destruct x as [j0 ip0 []| | | | |]; try done.
    by injection Ex as -> ->. }
  unfold calls in Hin. apply elem_of_zip_r in Hin. apply elem_of_list_omap in Hin as (x & Hx & Ex).
  destruct x; try done. injection Ex as ->. destruct (add_called _ _ _ _ Hr Hx) as (n & w & Hca).
  apply elem_of_list_omap. by exists (SoCall n (CVerifyPow w ip')).
Qed.
End reached.

(** * What is ahead of a job *)
Definition todo (s : ssys) (i : job) : nat := match sy_jobs s !! i with Some v => length (vj_todo v) | None => 0 end.
(** Steps of a runner for job [i], before it is taken and after, as far as job [j] waits for them. *)
Definition wc (s : ssys) (j i : job) : nat := if i <? j then 2 + todo s i else if i =? j then 2 else 0.
Definition rc (s : ssys) (j i : job) : nat := if i <? j then 1 + todo s i else if i =? j then 1 else 0.
Definition ahead (s : ssys) (j : job) : nat := pot (wc s j) (rc s j) (sy_q s).
Lemma pot_le f g f' g' q : (forall x, f x <= f' x) -> (forall x, g x <= g' x) -> pot f g q <= pot f' g' q.
Proof.
  intros Hf Hg. unfold pot, impot.
  pose proof (wsum_le f f' (sched_ids (qs_inbox q)) (fun x _ => Hf x)).
  pose proof (wsum_le f f' (waiting (im_queues (qs_im q))) (fun x _ => Hf x)).
  pose proof (wsum_le f f' (concat ((fun r => proves (rn_chan r)) <$> im_runners (qs_im q))) (fun x _ => Hf x)).
  pose proof (wsum_le g g' (concat ((fun r => running (rn_state r)) <$> im_runners (qs_im q))) (fun x _ => Hg x)). lia.
Qed.
Lemma ahead_jobs s s' j : sy_q s' = sy_q s -> (forall i, i < j -> todo s' i <= todo s i) -> ahead s' j <= ahead s j.
Proof.
  intros E H. unfold ahead. rewrite E. apply pot_le; intros i; unfold wc, rc; destruct (Nat.ltb_spec i j) as [Hl|]; try done;
    specialize (H i Hl); lia.
Qed.
Lemma ahead_cong s s' j : (forall i, i < j -> todo s' i = todo s i) -> ahead s' j = pot (wc s j) (rc s j) (sy_q s').
Proof.
  intros H. unfold ahead. apply Nat.le_antisymm; apply pot_le; intros i; unfold wc, rc; destruct (Nat.ltb_spec i j) as [Hl|]; try done;
    specialize (H i Hl); lia.
Qed.

(** The todo of an existing job only gets shorter. *)
Lemma todo_leave s n c i : todo (leave s n c) i = todo s i.
Proof.
  unfold todo. cbn [leave sy_jobs]. destruct (client_job c) as [j|]; [|done]. destruct (decide (i = j)) as [->|Hne].
  - rewrite lookup_alter. by destruct (sy_jobs s !! j).
  - by rewrite lookup_alter_ne.
Qed.
Lemma todo_job s j v i : todo (with_job s j v) i = if decide (j = i) then length (vj_todo v) else todo s i.
Proof.
  unfold todo. cbn [with_job sy_jobs]. destruct (decide (j = i)) as [<-|Hne]; [by rewrite lookup_insert|by rewrite lookup_insert_ne].
Qed.
Lemma todo_step p l s e s' o i : scase p l s e s' o -> i <> qs_next (sy_q s) ->
  todo s' i <= todo s i /\ ((forall r, e <> SeSend r) -> todo s' i = todo s i).
Proof.
  intros Hc Hi. destruct Hc; try done; try (by rewrite todo_leave); try (rewrite todo_job; destruct (decide _) as [<-|]; [|done]).
  - unfold todo. rewrite H0, H1. cbn [vj_todo length]. split; [lia|]. intros Hx. by destruct (Hx r).
  - unfold todo. rewrite H0, H1. cbn [vj_todo length]. split; [lia|]. intros Hx. by destruct (Hx r).
  - unfold todo. cbn [with_client with_job with_q sy_jobs]. rewrite lookup_insert_ne by done. done.
  - unfold todo. cbn [with_client with_job sy_jobs]. destruct (decide (j = i)) as [<-|Hne].
    + rewrite lookup_insert. cbn [vj_todo]. by rewrite H0.
    + by rewrite lookup_insert_ne.
Qed.

(** How the queue moves in a step of the System. *)
Definition queue_event (s : ssys) (e : sevent) (qe : qevent) : Prop :=
  match e with
  | SeManager => qe = QeManager
  | SeRecv r => qe = QeRecv r
  | SeEnd r => qe = QeFinish r \/ qe = QePanic r
  | SeAct n _ => exists w ip c, sy_clients s !! n = Some (VpAdd w ip c) /\ qe = QeAdd ip
  | _ => False
  end.
Lemma queue_step p l s e s' o : scase p l s e s' o ->
  (sy_q s' = sy_q s /\ sy_answers s' = sy_answers s /\ qtrace o = [] /\ e <> SeManager /\ (forall r, e <> SeRecv r) /\ (forall r, e <> SeEnd r)) \/
  exists qe os, queue_event s e qe /\ q_step p (sy_q s) qe = Some (sy_q s', os) /\ sy_answers s' = sy_answers (with_q s (sy_q s') os) /\
    qtrace o = [qe].
Proof.
  intros Hc. destruct Hc; try (by left);
    try (right; eexists _, _; split; [|split; [eassumption|done]]; cbn; eauto; done).
Qed.

Lemma wsum_elem f a x : x ∈ a -> f x <= wsum f a.
Proof. induction 1 as [x a|x y a _ IH]; rewrite wsum_cons; lia. Qed.
Lemma holds_elem q r j : holds q r j = true -> j ∈ at_runners q \/ j ∈ running_jobs q.
Proof.
  unfold holds. destruct (im_runners _ !! r) as [x|] eqn:E; [|done]. intros H%bool_decide_eq_true%elem_of_app.
  apply elem_of_list_lookup_2 in E. unfold at_runners, running_jobs. destruct H as [H|H]; [right|left]; apply concat_elem;
    eexists; (split; [apply elem_of_list_fmap; by eexists|done]).
Qed.
Lemma ahead_pos s r j : holds (sy_q s) r j = true -> 1 <= ahead s j.
Proof.
  intros H%holds_elem. unfold ahead, pot, impot.
  assert (wc s j j = 2) as E1 by (unfold wc; by rewrite Nat.ltb_irrefl, Nat.eqb_refl).
  assert (rc s j j = 1) as E2 by (unfold rc; by rewrite Nat.ltb_irrefl, Nat.eqb_refl).
  destruct H as [H|H]; [apply (wsum_elem (wc s j)) in H|apply (wsum_elem (rc s j)) in H]; unfold at_runners, running_jobs in H; lia.
Qed.

Section measured.
Context (p : profile) (l : pow_lib) (t gc : N) (wk : nat) (ql : N).
Local Notation reach es s tr := (s_run p l (sys_start t gc wk ql) es = Some (s, tr)).

Lemma queue_facts es s tr : reach es s tr -> manageable l wk tr ->
  qinv wk ql (sy_q s) /\ qs_mgr (sy_q s) = MAlive /\ (forall m, m ∈ qs_inbox (sy_q s) -> ~ is_stop m) /\
  waiting (im_queues (qs_im (sy_q s))) = [] /\
  (forall r x, im_runners (qs_im (sy_q s)) !! r = Some x -> sorted (running (rn_state x) ++ proves (rn_chan x))).
Proof.
  intros Hr Hm. pose proof (decent_calm _ _ _ _ _ _ _ _ _ Hr (proj1 Hm)) as Hn. pose proof (no_panics_of _ Hn) as Hnp.
  pose proof (run_sinv _ _ _ _ _ _ _ _ _ Hr) as Hi. pose proof (si_q _ _ _ _ _ _ Hi) as Hq.
  pose proof (few_ips _ _ _ _ _ _ _ _ _ Hr Hm) as Hle.
  destruct (run_tinv _ _ _ _ _ _ Hnp Hq) as [Hqi _].
  pose proof (mgr_alive _ _ _ _ _ Hq Hn (si_drop _ _ _ _ _ _ Hi)) as Ha.
  split; [done|]. split; [done|]. split.
  { pose proof (qi_inbox _ _ _ Hqi) as Hb. rewrite Ha, (si_drop _ _ _ _ _ _ Hi) in Hb. cbn in Hb. by apply Forall_forall. }
  split; [by destruct (c45_enough_runners _ _ _ _ _ _ Hnp Hq Hle)|].
  intros r x Hx. by eapply runner_sorted.
Qed.
Lemma reach_step es s tr e s' o : reach es s tr -> s_step p l s e = Some (s', o) -> reach (es ++ [e]) s' (tr ++ o).
Proof. intros Hr Hs. apply s_run_snoc. eauto 10. Qed.
Lemma qcase_of es s tr e s' o qe os : reach es s tr -> s_step p l s e = Some (s', o) -> manageable l wk (tr ++ o) ->
  q_step p (sy_q s) qe = Some (sy_q s', os) -> qtrace o = [qe] -> qcase (sy_q s) qe (sy_q s') os.
Proof.
  intros Hr Hs Hm Hq Ho. destruct (queue_facts _ _ _ Hr (manageable_mono _ _ _ _ Hm)) as (Hi & _).
  eapply step_case; [exact Hi| |exact Hq]. intros r ->.
  apply (decent_calm _ _ _ _ _ _ _ _ _ (reach_step _ _ _ _ _ _ Hr Hs) (proj1 Hm)).
  exists r. rewrite qtrace_app, elem_of_app, Ho. right. by left.
Qed.
(** Nothing gets ahead of a job. *)
Lemma ahead_step es s tr e s' o j : reach es s tr -> s_step p l s e = Some (s', o) -> manageable l wk (tr ++ o) ->
  j < qs_next (sy_q s) -> ahead s' j <= ahead s j.
Proof.
  intros Hr Hs Hm Hj. pose proof (s_step_case _ _ _ _ _ _ Hs) as Hc.
  destruct (queue_facts _ _ _ Hr (manageable_mono _ _ _ _ Hm)) as (Hqi & Ha & Hns & _ & _).
  pose proof (si_drop _ _ _ _ _ _ (run_sinv _ _ _ _ _ _ _ _ _ Hr)) as Hd.
  destruct (queue_step _ _ _ _ _ _ Hc) as [(E & _)|(qe & os & He & Hq & _ & Ho)].
  - apply ahead_jobs; [done|]. intros i Hi. apply (todo_step _ _ _ _ _ _ _ Hc). lia.
  - pose proof (qcase_of _ _ _ _ _ _ _ _ Hr Hs Hm Hq Ho) as Hqc.
    rewrite (ahead_cong s s').
    2:{ intros i Hi. apply (todo_step _ _ _ _ _ _ _ Hc); [lia|]. intros r ->. done. }
    unfold ahead. destruct e as [c|n rnd|n|me| |r|r|r|due d|d]; cbn [queue_event] in He; try done.
    + destruct He as (w & ip & c & _ & ->). rewrite (pot_add _ _ _ _ _ _ Hqc). unfold wc at 2.
      destruct (Nat.ltb_spec (qs_next (sy_q s)) j); [lia|]. destruct (Nat.eqb_spec (qs_next (sy_q s)) j); lia.
    + subst qe. by eapply pot_manager.
    + subst qe. destruct (pot_recv (wc s j) (rc s j) _ _ _ _ Hqc) as [(c & _ & ->)|(i & c & _ & E)]; [done|].
      assert (rc s j i <= wc s j i); [|lia]. unfold rc, wc. destruct (i <? j), (i =? j); lia.
    + destruct He as [-> | ->]; [|by inversion Hqc]. destruct (pot_finish (wc s j) (rc s j) _ _ _ _ Hqc) as (i & _ & E). lia.
Qed.
Definition poll_need (s : ssys) (j : job) : nat := if no_verdict s j then ahead s j + 3 else 3.
(** A step of the runner that has the job brings it nearer. *)
Lemma runner_turn es s tr e r s' o n w c j : reach es s tr -> s_step p l s e = Some (s', o) -> manageable l wk (tr ++ o) ->
  e = SeRecv r \/ e = SeSend r \/ e = SeEnd r -> sy_clients s !! n = Some (VpPoll w c j) ->
  no_verdict s j = true -> holds (sy_q s) r j = true -> poll_need s' j + 1 <= poll_need s j.
Proof.
  intros Hr Hs Hm He Hcl Hnv Hh. pose proof (s_step_case _ _ _ _ _ _ Hs) as Hc.
  pose proof (manageable_mono _ _ _ _ Hm) as Hm1.
  destruct (queue_facts _ _ _ Hr Hm1) as (Hqi & Ha & Hns & _ & Hso).
  pose proof (run_sinv _ _ _ _ _ _ _ _ _ Hr) as Hi.
  destruct (si_own _ _ _ _ _ _ Hi _ _ _ Hcl eq_refl) as (v & Hv & Hop & Hok). cbn [job_ok] in Hok.
  assert (j < qs_next (sy_q s)) as Hj by (apply (si_dom _ _ _ _ _ _ Hi); eauto).
  assert (vj_buf v = []) as Hb by (unfold no_verdict in Hnv; rewrite Hv in Hnv; by destruct (vj_buf v)).
  assert (vj_todo v <> []) as Ht.
  { assert (decent l w) as Hdw.
    { pose proof (si_log _ _ _ _ _ _ Hi _ _ Hcl) as [[ip' Hl] _]. apply (proj1 Hm1 n w ip').
      assert (SoCall n (CVerifyPow w ip') ∈ of_client n tr) as [_ Hx]%elem_of_of_client; [|done]. rewrite Hl. by left. }
    destruct (script_decent l w (cc_difficulty_factor c) Hdw) as (bs & Hbs & Hne & _). rewrite Hok, Hb in Hbs. cbn in Hbs. congruence. }
  pose proof (ahead_pos _ _ _ Hh) as Hpos.
  assert (no_verdict s' j = true -> ahead s' j + 1 <= ahead s j) as Hgoal.
  2:{ unfold poll_need. rewrite Hnv. destruct (no_verdict s' j); [specialize (Hgoal eq_refl)|]; lia. }
  intros Hnv'.
  assert (exists x, im_runners (qs_im (sy_q s)) !! r = Some x) as [x Hx].
  { unfold holds in Hh. destruct (im_runners _ !! r); [eauto|done]. }
  specialize (Hso _ _ Hx).
  destruct (queue_step _ _ _ _ _ _ Hc) as [(E & _ & _ & N1 & N2 & N3)|(qe & os & Hqe & Hq & _ & Ho)].
  - destruct He as [-> |[-> | ->]]; [by destruct (N2 r)| |by destruct (N3 r)].
    assert (exists i vi b rest, running_job (sy_q s) r = Some i /\ sy_jobs s !! i = Some vi /\ vj_todo vi = b :: rest /\ 
      (i = j -> no_verdict s' j = false) /\ todo s' i < todo s i) as (i & vi & b & rest & Hri & Hvi & Hti & Hij & Hlt).
    { inversion Hc as [| | | | |r' i vi b rest Hri Hvi Hti Hoi|r' i vi b rest Hri Hvi Hti Hoi Hbi| | | | | | | | | | | | | | | | | | | | | | |]; subst;
      exists i, vi, b, rest; split_and!; try done.
      + intros ->. congruence.
      + rewrite todo_job, decide_True by done. unfold todo. rewrite Hvi, Hti. cbn. lia.
      + intros ->. unfold no_verdict. cbn [with_job sy_jobs]. rewrite lookup_insert. cbn [vj_buf]. by destruct (vj_buf vi).
      + rewrite todo_job, decide_True by done. unfold todo. rewrite Hvi, Hti. cbn. lia. }
    pose proof (running_first _ _ _ _ _ Hx Hso Hh Hri) as Hle.
    assert (i < j) as Hlt'. { destruct (decide (i = j)) as [->|]; [|lia]. rewrite (Hij eq_refl) in Hnv'. done. }
    assert (forall k, k < j -> todo s' k <= todo s k) as Htodo.
    { intros k Hk. apply (todo_step _ _ _ _ _ _ _ Hc). lia. }
    unfold ahead. rewrite E. unfold pot, impot.
    assert (forall k, wc s' j k <= wc s j k) as Hw.
    { intros k. unfold wc. destruct (Nat.ltb_spec k j) as [Hk|]; [|done]. specialize (Htodo _ Hk). lia. }
    assert (forall k, rc s' j k <= rc s j k) as Hrc.
    { intros k. unfold rc. destruct (Nat.ltb_spec k j) as [Hk|]; [|done]. specialize (Htodo _ Hk). lia. }
    pose proof (wsum_le _ _ (sched_ids (qs_inbox (sy_q s))) (fun k _ => Hw k)).
    pose proof (wsum_le _ _ (waiting (im_queues (qs_im (sy_q s)))) (fun k _ => Hw k)).
    pose proof (wsum_le _ _ (concat ((fun r => proves (rn_chan r)) <$> im_runners (qs_im (sy_q s)))) (fun k _ => Hw k)).
    pose proof (wsum_lt (rc s' j) (rc s j) (concat ((fun r => running (rn_state r)) <$> im_runners (qs_im (sy_q s)))) i
      (running_elem _ _ _ Hri) (fun k _ => Hrc k)) as Hstrict.
    assert (rc s' j i < rc s j i) as Hsi. { unfold rc. destruct (Nat.ltb_spec i j); lia. }
    specialize (Hstrict Hsi). lia.
  - pose proof (qcase_of _ _ _ _ _ _ _ _ Hr Hs Hm Hq Ho) as Hqc.
    rewrite (ahead_cong s s').
    2:{ intros i Hi'. apply (todo_step _ _ _ _ _ _ _ Hc); [lia|]. intros r' ->. done. }
    unfold ahead. destruct He as [-> |[-> | ->]]; cbn [queue_event] in Hqe; [|done|].
    + subst qe. destruct (pot_recv (wc s j) (rc s j) _ _ _ _ Hqc) as [(ch & Hrr & _)|(i & ch & Hrr & E)].
      * exfalso. pose proof (Forall_lookup_1 _ _ _ _ (qi_runners _ _ _ Hqi) Hrr) as Hri. rewrite Ha in Hri.
        destruct Hri as [_ Hst]. by apply Forall_cons in Hst as [Hst _].
      * assert (i <= j) as Hle.
        { apply (next_first _ _ _ _ _ Hrr); [|done]. rewrite Hrr in Hx. injection Hx as <-. exact Hso. }
        assert (wc s j i = rc s j i + 1); [|lia]. unfold wc, rc. destruct (Nat.ltb_spec i j); [lia|]. destruct (Nat.eqb_spec i j); lia.
    + destruct Hqe as [-> | ->]; [|by inversion Hqc]. destruct (pot_finish (wc s j) (rc s j) _ _ _ _ Hqc) as (i & Hri & E).
      pose proof (running_first _ _ _ _ _ Hx Hso Hh Hri) as Hle.
      assert (i <> j) as Hne.
      { intros ->. inversion Hc; subst; simplify_eq; congruence. }
      assert (1 <= rc s j i); [|lia]. unfold rc. destruct (Nat.ltb_spec i j); lia.
Qed.

(** * The dispatcher's inbox *)
Fixpoint upto (j : job) (box : list imsg) : nat :=
  match box with
  | [] => 0
  | ImSchedule i _ :: r => if i =? j then 1 else S (upto j r)
  | _ :: r => S (upto j r)
  end.
Lemma upto_le j box : upto j box <= length box.
Proof. induction box as [|[| |i ip] box IH]; cbn; [done|lia..|]. destruct (i =? j); lia. Qed.
Lemma upto_app j a b : j ∈ sched_ids a -> upto j (a ++ b) = upto j a.
Proof.
  induction a as [|[| |i ip] a IH]; cbn; intros H; [by apply elem_of_nil in H|by rewrite IH..|].
  destruct (Nat.eqb_spec i j) as [->|Hne]; [done|]. apply elem_of_cons in H as [H|H]; [done|]. by rewrite IH.
Qed.
Lemma qcase_inbox q e q' o : qcase q e q' o -> e <> QeManager -> exists suf, qs_inbox q' = qs_inbox q ++ suf.
Proof.
  intros [] He; try done; cbn [qs_inbox set_runner]; first [by eexists|exists []; by rewrite app_nil_r].
Qed.
Lemma unanswered es s tr n w c j : reach es s tr -> manageable l wk tr -> sy_clients s !! n = Some (VpAnswer w c j) ->
  sy_answers s !! j = None -> j ∈ sched_ids (qs_inbox (sy_q s)).
Proof.
  intros Hr Hm Hcl Hn. pose proof (run_sinv _ _ _ _ _ _ _ _ _ Hr) as Hi.
  pose proof (decent_calm _ _ _ _ _ _ _ _ _ Hr (proj1 Hm)) as Hnp.
  pose proof (run_answers _ _ _ _ _ _ (no_panics_of _ Hnp) (si_q _ _ _ _ _ _ Hi)) as Ha.
  destruct (si_own _ _ _ _ _ _ Hi _ _ _ Hcl eq_refl) as (v & Hv & _).
  assert (j < qs_next (sy_q s)) as Hj by (apply (si_dom _ _ _ _ _ _ Hi); eauto).
  assert (j ∈ seq 0 (qs_next (sy_q s))) as Hin by (apply elem_of_seq; lia).
  rewrite <- Ha, elem_of_app in Hin. destruct Hin as [Hin|Hin]; [|done]. exfalso.
  unfold answered in Hin. apply elem_of_list_omap in Hin as (x & Hx & Ex). destruct x; try done. injection Ex as ->.
  destruct (answers_complete _ _ _ _ _ _ _ _ _ _ _ _ Hr Hx) as [? ?]. congruence.
Qed.
Definition answer_need (s : ssys) (j : job) : nat :=
  match sy_answers s !! j with Some _ => 0 | None => upto j (qs_inbox (sy_q s)) end + 1 + ahead s j + 3.
Lemma answer_step es s tr e s' o n w c j : reach es s tr -> s_step p l s e = Some (s', o) -> manageable l wk (tr ++ o) ->
  sy_clients s !! n = Some (VpAnswer w c j) ->
  answer_need s' j + (match e with SeManager => match sy_answers s !! j with None => 1 | _ => 0 end | _ => 0 end) <= answer_need s j.
Proof.
  intros Hr Hs Hm Hcl. pose proof (s_step_case _ _ _ _ _ _ Hs) as Hc. pose proof (manageable_mono _ _ _ _ Hm) as Hm1.
  pose proof (run_sinv _ _ _ _ _ _ _ _ _ Hr) as Hi.
  destruct (si_own _ _ _ _ _ _ Hi _ _ _ Hcl eq_refl) as (v & Hv & _).
  assert (j < qs_next (sy_q s)) as Hj by (apply (si_dom _ _ _ _ _ _ Hi); eauto).
  pose proof (ahead_step _ _ _ _ _ _ _ Hr Hs Hm Hj) as Hah. unfold answer_need.
  destruct (queue_step _ _ _ _ _ _ Hc) as [(E & Ea & _ & N1 & _)|(qe & os & He & Hq & Ea & Ho)].
  { rewrite E, Ea. destruct e; try done; destruct (sy_answers s !! j); lia. }
  assert (is_Some (sy_answers s !! j) \/ (exists ip x, QAnswer j ip x ∈ os) -> is_Some (sy_answers s' !! j)) as Hsome.
  { intros H. rewrite Ea. cbn [with_q sy_answers]. by apply foldl_answers_some. }
  destruct (sy_answers s !! j) as [x|] eqn:Ej.
  { destruct Hsome as [x' ->]; [left; by eexists|]. destruct e; lia. }
  pose proof (unanswered _ _ _ _ _ _ _ Hr Hm1 Hcl Ej) as Hin.
  pose proof (qcase_of _ _ _ _ _ _ _ _ Hr Hs Hm Hq Ho) as Hqc.
  destruct (queue_facts _ _ _ Hr Hm1) as (Hqi & Hal & _).
  assert (qe <> QeManager -> match sy_answers s' !! j with Some _ => 0 | None => upto j (qs_inbox (sy_q s')) end <= upto j (qs_inbox (sy_q s))) as Hother.
  { intros Hne. destruct (qcase_inbox _ _ _ _ Hqc Hne) as [suf ->]. rewrite upto_app by done. destruct (sy_answers s' !! j); lia. }
  destruct e as [c0|m rnd|m|me| |r|r|r|due d|d]; cbn [queue_event] in He; try done.
  - destruct He as (? & ? & ? & _ & ->). specialize (Hother ltac:(done)). lia.
  - subst qe. destruct (qs_inbox (sy_q s)) as [|m rest] eqn:Eb; [by apply elem_of_nil in Hin|].
    destruct (manager_progress p _ _ _ _ _ Hqi Hal Eb) as (q' & o' & Hq' & Hib & Hans). rewrite Hq in Hq'. injection Hq' as <- <-.
    rewrite Hib.
    assert ((exists ip, m = ImSchedule j ip) \/ ~ (exists ip, m = ImSchedule j ip)) as [[ip ->]|Hne].
    { destruct m as [| |i ip]; [right; by intros [? ?]..|]. destruct (decide (i = j)) as [->|]; [left; eauto|].
      right. intros [? [=]]. congruence. }
    + destruct (Hans j ip eq_refl) as [x Hx]. destruct Hsome as [x' ->]; [right; eauto|]. cbn [upto]. rewrite Nat.eqb_refl. lia.
    + assert (upto j (m :: rest) = S (upto j rest)) as E.
      { destruct m as [| |i ip]; try done. cbn [upto]. destruct (Nat.eqb_spec i j) as [->|]; [|done]. exfalso. eauto. }
      rewrite E. destruct (sy_answers s' !! j); lia.
  - subst qe. specialize (Hother ltac:(done)). lia.
  - assert (qe <> QeManager) as Hne by (by destruct He as [-> | ->]). specialize (Hother Hne). lia.
Qed.

(** * What a call still needs *)
Definition F (b : nat) : nat := (b + 1) + 1 + (4 * b + 2) + 3.
Definition need (b : nat) (s : ssys) (n : nat) : nat :=
  match sy_clients s !! n with
  | Some (GpStart _) => 5
  | Some (GpWait _ k) => match sy_replies s !! k with Some _ => 3 | None => 4 end
  | Some (GpCache _ _ _) => 2
  | Some (GpDone _) => 1
  | Some (VpStart _ _) => 2 + F b
  | Some (VpAdd _ _ _) => 1 + F b
  | Some (VpAnswer _ _ j) => answer_need s j
  | Some (VpPoll _ _ j) => poll_need s j
  | Some (VpStore _ _ _ _) => 2
  | Some (VpDone _ _ _ _) => 1
  | Some (VtStart _) => 2
  | Some (VtDone _) => 1
  | None => 0
  end.
Lemma need_pos b s n : is_Some (sy_clients s !! n) -> 1 <= need b s n.
Proof.
  intros [c H]. unfold need, F, answer_need, poll_need. rewrite H. destruct c; try lia.
  - destruct (sy_replies s !! k); lia.
  - destruct (no_verdict s j); lia.
Qed.
Lemma client_same tr s e s' o n c :
  sinv p l wk ql tr s -> scase p l s e s' o -> not_by n e -> sy_clients s !! n = Some c -> sy_clients s' !! n = Some c.
Proof.
  intros Hi Hc [N1 N2] Hn. destruct Hc; try done; cbn [with_client with_job with_m with_c with_q leave sy_clients];
    repeat match goal with
    | |- <[?m := _]> _ !! n = _ => rewrite lookup_insert_ne; [try done|]
    | |- delete ?m _ !! n = _ => rewrite lookup_delete_ne; [try done|]
    end; try (intros ->; by destruct (N2 rnd)); try (intros ->; by destruct N1).
  intros <-. destruct (si_fresh _ _ _ _ _ _ Hi (sy_next s)) as [E _]; [done|congruence].
Qed.
(** * One step *)
Lemma foldl_replies_some os (m : gmap nat mreply) k :
  is_Some (m !! k) \/ (exists x, MoReply k x ∈ os) ->
  is_Some (foldl (fun (r : gmap nat mreply) o => match o with MoReply k x => <[k := x]> r | _ => r end) m os !! k).
Proof.
  revert m. induction os as [|o os IH]; intros m; cbn [foldl].
  - intros [H|(x & H)]; [done|by apply elem_of_nil in H].
  - intros H. apply IH. destruct H as [H|(x & [<-|H]%elem_of_cons)]; [left|left|right; eauto].
    + destruct o as [?|k' y|? ?]; try done. destruct (decide (k' = k)) as [->|]; [by rewrite lookup_insert; eexists|by rewrite lookup_insert_ne].
    + rewrite lookup_insert. by eexists.
Qed.
Lemma replies_step s e s' o k : scase p l s e s' o -> is_Some (sy_replies s !! k) -> is_Some (sy_replies s' !! k).
Proof.
  intros Hc Hk. destruct Hc; try done; cbn [with_client with_m sy_replies]; apply foldl_replies_some; by left.
Qed.
Lemma visit_turn s k id c n m : scase p l s (SeMaster (MeTask m)) c n -> my_tasks (sy_m s) !! m = Some (TVisit (Some k) id) ->
  is_Some (sy_replies c !! k).
Proof.
  intros Hc Ht. inversion Hc as [| |e m' os Hne Hs| | | | | | | | | | | | | | | | | | | | | | | | | | |]; subst.
  assert (my_alive (sy_m s) = true) as Ha by (cbn [m_step] in Hs; by destruct (my_alive (sy_m s))).
  destruct (visit_step _ _ _ _ _ _ _ Ht Ha Hs) as (x & x' & r & _ & _ & _ & ->).
  cbn [with_m sy_replies]. apply foldl_replies_some. right. eexists. by left.
Qed.
Lemma concat_sched box : length (sched_ids box) <= length box.
Proof. unfold sched_ids. induction box as [|[| |i ip] box IH]; cbn [omap list_omap length] in *; first [done|fold (sched_ids box) in *; lia]. Qed.
Lemma pot_burden f g q k : (forall i, f i <= k) -> (forall i, g i <= k) -> waiting (im_queues (qs_im q)) = [] ->
  pot f g q <= k * burden q.
Proof.
  intros Hf Hg Hw. unfold pot, impot. rewrite Hw. change (wsum f []) with 0.
  pose proof (wsum_bound f (sched_ids (qs_inbox q)) k (fun i _ => Hf i)).
  pose proof (wsum_bound f (at_runners q) k (fun i _ => Hf i)).
  pose proof (wsum_bound g (running_jobs q) k (fun i _ => Hg i)).
  pose proof (concat_sched (qs_inbox q)).
  unfold burden, at_runners, running_jobs in *. nia.
Qed.
Lemma todo_two es s tr i : reach es s tr -> all_decent l tr -> todo s i <= 2.
Proof.
  intros Hr Hd. unfold todo. destruct (sy_jobs s !! i) as [v|] eqn:E; [|lia].
  by destruct (decent_job _ _ _ _ _ _ _ _ _ _ _ Hr Hd E).
Qed.
Lemma wc_four es s tr j i : reach es s tr -> all_decent l tr -> wc s j i <= 4 /\ rc s j i <= 4.
Proof. intros Hr Hd. pose proof (todo_two _ _ _ i Hr Hd). unfold wc, rc. destruct (i <? j), (i =? j); lia. Qed.
Definition waits (c : client) : Prop := match c with VpAdd _ _ _ | VpAnswer _ _ _ | VpPoll _ _ _ => True | _ => False end.
Lemma no_verdict_step es s tr e s' o n w c j : reach es s tr -> scase p l s e s' o -> not_by n e ->
  sy_clients s !! n = Some (VpPoll w c j) -> no_verdict s j = false -> no_verdict s' j = false.
Proof.
  intros Hr Hc Hnb Hcl Hn. pose proof (run_sinv _ _ _ _ _ _ _ _ _ Hr) as Hi.
  destruct (si_own _ _ _ _ _ _ Hi _ _ _ Hcl eq_refl) as (v & Hv & _).
  destruct (client_frame _ _ _ _ _ _ _ _ _ _ _ _ _ Hi Hc Hnb Hcl eq_refl Hv) as [_ [E|(r & b & rest & _ & _ & _ & _ & E)]];
    unfold no_verdict in *; rewrite E; rewrite Hv in Hn; [done|]. cbn [vj_buf]. by destruct (vj_buf v).
Qed.
Lemma not_by_dec n e : not_by n e \/ e = SeCancel n \/ exists rnd, e = SeAct n rnd.
Proof.
  destruct e as [c|m rnd|m|me| |r|r|r|due d|d]; try (by left; split); destruct (decide (m = n)) as [->|Hne]; eauto.
  - left. split; [done|]. congruence.
  - left. split; [|done]. congruence.
Qed.
Lemma turn_env n s e c : not_by n e -> sy_clients s !! n = Some c -> turn_for n s e = true ->
  (exists t id k q, e = SeMaster (MeTask t) /\ c = GpWait id k /\ my_tasks (sy_m s) !! t = Some (TVisit (Some k) q) /\ sy_replies s !! k = None) \/
  (exists w cf j, e = SeManager /\ c = VpAnswer w cf j /\ sy_answers s !! j = None) \/
  (exists w cf j r, (e = SeRecv r \/ e = SeSend r \/ e = SeEnd r) /\ c = VpPoll w cf j /\ no_verdict s j = true /\ holds (sy_q s) r j = true).
Proof.
  intros [N1 N2] Hc Ht. destruct e as [c0|m rnd|m|me| |r|r|r|due d|d]; cbn [turn_for] in Ht; try done.
  - apply Nat.eqb_eq in Ht as ->. by destruct (N2 rnd).
  - destruct me; try done. rewrite Hc in Ht. destruct c; try done. destruct (my_tasks (sy_m s) !! t0) as [[| |[k'|]| | | |]|] eqn:E; try done.
    apply andb_true_iff in Ht as [E1%Nat.eqb_eq E2%bool_decide_eq_true]. subst. left. eauto 10.
  - rewrite Hc in Ht. destruct c; try done. apply bool_decide_eq_true in Ht. right. left. eauto 10.
  - rewrite Hc in Ht. destruct c; try done. apply andb_true_iff in Ht as [? ?]. right. right. eauto 15.
  - rewrite Hc in Ht. destruct c; try done. apply andb_true_iff in Ht as [? ?]. right. right. eauto 15.
  - rewrite Hc in Ht. destruct c; try done. apply andb_true_iff in Ht as [? ?]. right. right. eauto 15.
Qed.
Lemma add_inbox q ip q' o : qcase q (QeAdd ip) q' o -> length (qs_inbox q') = length (qs_inbox q) + 1.
Proof. inversion 1; subst. cbn [qs_inbox]. by rewrite app_length. Qed.
Lemma need_step b es s tr e s' o n c : reach es s tr -> s_step p l s e = Some (s', o) -> sy_clients s !! n = Some c ->
  (waits c -> manageable l wk (tr ++ o)) ->
  (forall rnd w ip cf, e = SeAct n rnd -> c = VpAdd w ip cf -> burden (sy_q s) <= b) ->
  need b s' n + (if turn_for n s e then 1 else 0) <= need b s n.
Proof.
  intros Hr Hs Hcl Hm Hb. pose proof (s_step_case _ _ _ _ _ _ Hs) as Hc. pose proof (run_sinv _ _ _ _ _ _ _ _ _ Hr) as Hi.
  assert (1 <= need b s n) as Hpos by (apply need_pos; eauto).
  assert (forall s1 c1, need b (leave s1 n c1) n = 0) as Hleave.
  { intros s1 c1. unfold need. cbn [leave sy_clients]. by rewrite lookup_delete. }
  destruct (not_by_dec n e) as [Hnb|[->|[rnd ->]]].
  - pose proof (client_same _ _ _ _ _ _ _ Hi Hc Hnb Hcl) as Hcl'.
    destruct (turn_for n s e) eqn:Et.
    + destruct (turn_env _ _ _ _ Hnb Hcl Et) as [(t0 & id & k & q & -> & -> & Ht & Hk)|[(w & cf & j & -> & -> & Ha)|(w & cf & j & r & He & -> & Hv & Hh)]].
      * unfold need. rewrite Hcl, Hcl', Hk. destruct (visit_turn _ _ _ _ _ _ Hc Ht) as [x ->]. lia.
      * unfold need. rewrite Hcl, Hcl'. pose proof (answer_step _ _ _ _ _ _ _ _ _ _ Hr Hs (Hm I) Hcl) as H. cbn in H. rewrite Ha in H. lia.
      * unfold need. rewrite Hcl, Hcl'. by eapply (runner_turn _ _ _ _ _ _ _ _ _ _ _ Hr Hs (Hm I) He Hcl).
    + unfold need. rewrite Hcl, Hcl'. destruct c as [id|id k|id v cfg|cfg|w ip|w ip c|w c j|w c j|w c j tok|w c j tok|m|bb]; try lia.
      * destruct (sy_replies s !! k) as [x|] eqn:Ek.
        -- destruct (replies_step _ _ _ _ k Hc) as [x' ->]; [by rewrite Ek|lia].
        -- destruct (sy_replies s' !! k); lia.
      * pose proof (answer_step _ _ _ _ _ _ _ _ _ _ Hr Hs (Hm I) Hcl) as H. lia.
      * destruct (si_own _ _ _ _ _ _ Hi _ _ _ Hcl eq_refl) as (v & Hv & _).
        assert (j < qs_next (sy_q s)) as Hj by (apply (si_dom _ _ _ _ _ _ Hi); eauto).
        pose proof (ahead_step _ _ _ _ _ _ _ Hr Hs (Hm I) Hj) as Hah. unfold poll_need.
        destruct (no_verdict s j) eqn:En; [destruct (no_verdict s' j); lia|].
        rewrite (no_verdict_step _ _ _ _ _ _ _ _ _ _ Hr Hc Hnb Hcl En). lia.
  - inversion Hc; subst. rewrite Hleave. cbn [turn_for]. lia.
  - replace (if turn_for n s (SeAct n rnd) then 1 else 0) with 1 by (cbn [turn_for]; by rewrite Nat.eqb_refl).
    assert (exists s1 c1, s' = leave s1 n c1 \/ s' = with_client s1 n c1) as Hshape.
    { inversion Hc; subst; eauto. }
    destruct c as [id|id k|id v cfg|cfg|w ip|w ip c|w c j|w c j|w c j tok|w c j tok|m|bb];
      unfold need in Hpos |- *; rewrite Hcl in Hpos |- *; fold (need b s' n).
    all: inversion Hc; subst; simplify_eq; rewrite ?Hleave; try lia;
      unfold need; cbn [with_client sy_clients]; rewrite ?lookup_insert; try lia.
    + cbn [with_m sy_replies]. destruct (_ !! my_reqs (sy_m s)); lia.
    + destruct (sy_replies s !! k); lia.
    + pose proof (Hb _ _ _ _ eq_refl eq_refl) as Hbb. specialize (Hm I).
      pose proof (reach_step _ _ _ _ _ _ Hr Hs) as Hr'.
      match type of Hs with _ = Some (?x, _) => set (s1 := x) in * end.
      set (j := qs_next (sy_q s)) in *.
      match goal with H : q_step p _ (QeAdd ip) = Some _ |- _ => rename H into Hq end.
      pose proof (qcase_of _ _ _ _ _ _ _ _ Hr Hs Hm Hq eq_refl) as Hqc.
      destruct (queue_facts _ _ _ Hr (manageable_mono _ _ _ _ Hm)) as (_ & _ & _ & Hw & _).
      assert (ahead s1 j <= 4 * b + 2) as Y1.
      { unfold ahead. change (sy_q s1) with q. rewrite (pot_add _ _ _ _ _ _ Hqc). fold j.
        assert (wc s1 j j = 2) as -> by (unfold wc; by rewrite Nat.ltb_irrefl, Nat.eqb_refl).
        pose proof (pot_burden (wc s1 j) (rc s1 j) (sy_q s) 4 (fun i => proj1 (wc_four _ _ _ j i Hr' (proj1 Hm)))
          (fun i => proj2 (wc_four _ _ _ j i Hr' (proj1 Hm))) Hw). lia. }
      assert (length (qs_inbox q) = length (qs_inbox (sy_q s)) + 1) as Y2.
      { exact (add_inbox _ _ _ _ Hqc). }
      unfold answer_need. change (sy_q s1) with q. pose proof (upto_le j (qs_inbox q)) as Y3. unfold F, burden in *.
      destruct (sy_answers s1 !! j); lia.
    + unfold answer_need in *. fold (need b s n) in *. set (s1 := with_client s n _).
      change (ahead s j) with (ahead s1 j). unfold poll_need. destruct (no_verdict s1 j); lia.
    + unfold poll_need. destruct (no_verdict s j); lia.
Qed.

(** * The whole run *)
(** The client is where a call of its kind can be. *)
Definition kind (cl : call) (c : client) : Prop :=
  match cl, c with
  | CGetPow _, (GpStart _ | GpWait _ _ | GpCache _ _ _ | GpDone _) => True
  | CVerifyPow _ _, (VpStart _ _ | VpAdd _ _ _ | VpAnswer _ _ _ | VpPoll _ _ _ | VpStore _ _ _ _ | VpDone _ _ _ _) => True
  | CValidate _, (VtStart _ | VtDone _) => True
  | _, _ => False
  end.
Lemma client_kind es s tr n c cl : reach es s tr -> sy_clients s !! n = Some c -> called tr n cl -> kind cl c.
Proof.
  intros Hr Hc Hcl. pose proof (si_log _ _ _ _ _ _ (run_sinv _ _ _ _ _ _ _ _ _ Hr) _ _ Hc) as Hl.
  assert (exists cl', SoCall n cl' ∈ of_client n tr /\ kind cl' c) as (cl' & Hin & Hk).
  { destruct c; cbn [log_of] in Hl.
    - rewrite Hl. eexists. split; [by left|done].
    - destruct Hl as [[os ->] _]. eexists. split; [by left|done].
    - destruct Hl as [[os ->] _]. eexists. split; [by left|done].
    - destruct Hl as (id & v & os & -> & _). eexists. split; [by left|done].
    - rewrite Hl. eexists. split; [by left|done].
    - destruct Hl as [-> _]. eexists. split; [by left|done].
    - destruct Hl as [[ip ->] _]. eexists. split; [by left|done].
    - destruct Hl as [[ip ->] _]. eexists. split; [by left|done].
    - destruct Hl as [[ip ->] _]. eexists. split; [by left|done].
    - destruct Hl as [[ip ->] _]. eexists. split; [by left|done].
    - rewrite Hl. eexists. split; [by left|done].
    - destruct Hl as (m & b' & _ & ->). eexists. split; [by left|done]. }
  apply elem_of_of_client in Hin as [_ Hin].
  assert (cl' = cl) as <- by (by eapply called_unique). done.
Qed.
Lemma called_lt es s tr n cl : reach es s tr -> called tr n cl -> n < sy_next s.
Proof.
  intros Hr Hc. destruct (decide (n < sy_next s)) as [|Hge]; [done|]. exfalso.
  destruct (si_fresh _ _ _ _ _ _ (run_sinv _ _ _ _ _ _ _ _ _ Hr) n) as [_ E]; [lia|].
  assert (SoCall n cl ∈ of_client n tr) as Hx by (by apply elem_of_of_client). rewrite E in Hx. by apply elem_of_nil in Hx.
Qed.
Lemma gone_over es s tr n cl : reach es s tr -> called tr n cl -> sy_clients s !! n = None ->
  SoCancel n ∈ tr \/ exists r, SoRet n r ∈ tr.
Proof.
  intros Hr Hc Hn. pose proof (run_sinv _ _ _ _ _ _ _ _ _ Hr) as Hi.
  destruct (si_gone _ _ _ _ _ _ Hi n (called_lt _ _ _ _ _ Hr Hc) Hn) as (c & lg & f & _ & Hf & E).
  assert (forall x, x ∈ f -> x ∈ tr) as Hin.
  { intros x Hx. assert (x ∈ of_client n tr) as [_ ?]%elem_of_of_client; [|done]. rewrite E, elem_of_app. by right. }
  destruct Hf as [->|Hf]; [left; apply Hin; by left|right].
  destruct c; try done; repeat match goal with
    | H : _ \/ _ |- _ => destruct H
    | H : exists _, _ |- _ => destruct H
    | H : _ /\ _ |- _ => destruct H
    end; subst f; eexists; apply Hin; first [by left|by right; left].
Qed.
Lemma over_gone es s tr n : reach es s tr -> (SoCancel n ∈ tr \/ exists r, SoRet n r ∈ tr) -> sy_clients s !! n = None.
Proof.
  intros Hr Hx. destruct (sy_clients s !! n) as [c|] eqn:E; [|done]. exfalso.
  pose proof (si_log _ _ _ _ _ _ (run_sinv _ _ _ _ _ _ _ _ _ Hr) _ _ E) as Hl.
  assert (SoCancel n ∈ of_client n tr \/ exists r, SoRet n r ∈ of_client n tr) as Hy.
  { destruct Hx as [Hx|[r Hx]]; [left|right; exists r]; by apply elem_of_of_client. }
  destruct c; cbn [log_of] in Hl; repeat match goal with
    | H : exists _, _ |- _ => destruct H
    | H : _ /\ _ |- _ => destruct H
    end;
    match goal with H : of_client n tr = _ |- _ => rewrite H in Hy end; clear -Hy;
    unfold issue_log, visit_log, queued_log, taken_log, retrieve_out, mint_out in *; destruct Hy as [Hy|[r Hy]];
    rewrite ?elem_of_app, ?elem_of_cons, ?elem_of_nil in Hy; intuition discriminate.
Qed.
Definition fit (c : call) (tr : list sout) : Prop := match c with CVerifyPow _ _ => manageable l wk tr | _ => True end.
Lemma fit_mono c a b : fit c (a ++ b) -> fit c a.
Proof. destruct c; try done. apply manageable_mono. Qed.
Lemma next_mono s e s' o : scase p l s e s' o -> sy_next s <= sy_next s'.
Proof. intros []; cbn; lia. Qed.
Lemma absent_step es s tr e s' o n : reach es s tr -> scase p l s e s' o -> n < sy_next s -> sy_clients s !! n = None ->
  sy_clients s' !! n = None.
Proof.
  intros Hr Hc Hlt Hn. assert (forall m c c', sy_clients s !! m = Some c -> <[m := c']> (sy_clients s) !! n = None) as H1.
  { intros m c c' Hm. rewrite lookup_insert_ne; [done|]. congruence. }
  assert (forall m, delete m (sy_clients s) !! n = None) as H2.
  { intros m. apply lookup_delete_None. auto. }
  destruct Hc; try done; cbn [with_client with_m with_c with_q with_job leave sy_clients]; try (by eapply H1); try apply H2.
  rewrite lookup_insert_ne; [done|lia].
Qed.
Lemma turn_absent n s e : sy_clients s !! n = None -> (forall rnd, e <> SeAct n rnd) -> turn_for n s e = false.
Proof.
  intros Hn Hne. destruct e as [c|m rnd|m|me| |r|r|r|due d|d]; cbn [turn_for]; try done; rewrite ?Hn; try done.
  - destruct (Nat.eqb_spec m n) as [->|]; [by destruct (Hne rnd)|done].
  - by destruct me.
Qed.
Lemma need_run b cl n es2 : forall es s tr s2 tr2, reach es s tr -> called tr n cl ->
  s_run p l s es2 = Some (s2, tr2) -> fit cl (tr ++ tr2) -> burden_at_most p l b n s es2 ->
  turns p l n s es2 + need b s2 n <= need b s n.
Proof.
  induction es2 as [|e es2 IH]; intros es s tr s2 tr2 Hr Hcl Hrun Hfit Hb.
  { injection Hrun as <- <-. cbn [turns]. lia. }
  cbn [s_run] in Hrun. destruct (s_step p l s e) as [[s1 o]|] eqn:Hs; [|done].
  destruct (s_run p l s1 es2) as [[s3 tr3]|] eqn:H3; [|done]. injection Hrun as <- <-.
  cbn [burden_at_most] in Hb. rewrite Hs in Hb. destruct Hb as [Hb1 Hb2].
  rewrite app_assoc in Hfit. pose proof (fit_mono _ _ _ Hfit) as Hf1.
  pose proof (reach_step _ _ _ _ _ _ Hr Hs) as Hr1.
  assert (called (tr ++ o) n cl) as Hcl1 by (unfold called in *; apply elem_of_app; by left).
  specialize (IH _ _ _ _ _ Hr1 Hcl1 H3 Hfit Hb2). cbn [turns]. rewrite Hs.
  assert (need b s1 n + (if turn_for n s e then 1 else 0) <= need b s n); [|lia].
  pose proof (s_step_case _ _ _ _ _ _ Hs) as Hc.
  destruct (sy_clients s !! n) as [c|] eqn:Ec.
  - apply (need_step b _ _ _ _ _ _ _ _ Hr Hs Ec).
    + intros Hw. pose proof (client_kind _ _ _ _ _ _ Hr Ec Hcl) as Hk. destruct c; try done; destruct cl; try done.
    + intros rnd w ip cf -> ->. cbn in Hb1. by apply (Hb1 eq_refl w ip cf).
  - pose proof (absent_step _ _ _ _ _ _ _ Hr Hc (called_lt _ _ _ _ _ Hr Hcl) Ec) as Ec1.
    rewrite turn_absent; [unfold need; rewrite Ec, Ec1; lia|done|]. intros rnd ->.
    apply s_step_eq in Hs as [_ Hs]. cbn [s_step'] in Hs. by rewrite Ec in Hs.
Qed.
Lemma need_start b es s tr n cl : reach es s tr -> called tr n cl -> fit cl tr ->
  (queued s n -> burden (sy_q s) <= b) -> need b s n <= turns_enough cl b.
Proof.
  intros Hr Hcl Hfit Hq. unfold need. destruct (sy_clients s !! n) as [c|] eqn:Ec; [|lia].
  pose proof (client_kind _ _ _ _ _ _ Hr Ec Hcl) as Hk.
  assert (forall j, manageable l wk tr -> burden (sy_q s) <= b -> ahead s j <= 4 * b) as Hah.
  { intros j Hm Hle. destruct (queue_facts _ _ _ Hr Hm) as (_ & _ & _ & Hw & _).
    pose proof (pot_burden (wc s j) (rc s j) (sy_q s) 4 (fun i => proj1 (wc_four _ _ _ j i Hr (proj1 Hm)))
          (fun i => proj2 (wc_four _ _ _ j i Hr (proj1 Hm))) Hw). unfold ahead. lia. }
  destruct cl as [id|w ip|m]; destruct c; try done; cbn [turns_enough]; unfold F; try lia.
  - destruct (sy_replies s !! k); lia.
  - assert (burden (sy_q s) <= b) as Hle by (apply Hq; unfold queued; eauto). specialize (Hah j Hfit Hle).
    unfold answer_need. pose proof (upto_le j (qs_inbox (sy_q s))). unfold burden in Hle. destruct (sy_answers s !! j); lia.
  - assert (burden (sy_q s) <= b) as Hle by (apply Hq; unfold queued; eauto). specialize (Hah j Hfit Hle).
    unfold poll_need. destruct (no_verdict s j); lia.
Qed.

(** * There is always a step *)
(** A question to the Master is answered, or a future will answer it. *)
Definition pend (m : msys) (rep : gmap nat mreply) (k : nat) : Prop :=
  is_Some (rep !! k) \/ (my_alive m = true /\ exists t c, my_tasks m !! t = Some (TVisit (Some k) c)).
Lemma pend_step m e m' os rep k : minv m -> m_step p m e = Some (m', os) -> pend m rep k ->
  pend m' (foldl (fun (r : gmap nat mreply) o => match o with MoReply k x => <[k := x]> r | _ => r end) rep os) k.
Proof.
  intros Hi Hs [Hk|(Ha & t0 & c & Ht)]; [left; apply foldl_replies_some; by left|].
  destruct (m_step_tasks _ _ _ _ _ Hi Hs) as [(s1 & Et & Ed & _)|(Ea & Hold & _)].
  - left. apply foldl_replies_some. right. unfold m_die in Ed. injection Ed as _ ->. exists MrDropped.
    apply elem_of_list_fmap. exists k. split; [done|]. apply elem_of_list_bind. exists (TVisit (Some k) c).
    split; [by left|]. apply elem_of_list_fmap. exists (t0, TVisit (Some k) c). split; [done|]. apply elem_of_map_to_list. by rewrite Et.
  - destruct (is_task_dec e t0) as [->|Hne].
    + destruct (visit_step _ _ _ _ _ _ _ Ht Ha Hs) as (x & x' & r & _ & _ & _ & ->).
      left. apply foldl_replies_some. right. eexists. by left.
    + right. split; [congruence|]. eauto.
Qed.
Lemma pend_ask m id m' os rep : m_step p m (MeReq (RqAddVisitor id)) = Some (m', os) ->
  pend m' (foldl (fun (r : gmap nat mreply) o => match o with MoReply k x => <[k := x]> r | _ => r end) rep os) (my_reqs m).
Proof.
  intros Hs. cbn [m_step] in Hs. destruct (my_alive m) eqn:Ea.
  - cbn [m_handle] in Hs. destruct (get_site _ id) as [ss [c|]]; injection Hs as <- <-.
    + right. cbn [spawn my_alive my_tasks my_next set_sites]. split; [done|]. eexists _, _. by rewrite lookup_insert.
    + left. apply foldl_replies_some. right. eexists. right. by left.
  - injection Hs as <- <-. left. apply foldl_replies_some. right. eexists. by left.
Qed.
Lemma minv_reach es s tr : reach es s tr -> minv (sy_m s).
Proof. intros Hr. eapply MasterProofs.run_inv. apply (pt_m _ _ _ _ _ _ _ (run_parts _ _ _ _ _ _ _ _ _ Hr)). Qed.
Lemma pend_reach es s tr n id k : reach es s tr -> sy_clients s !! n = Some (GpWait id k) -> pend (sy_m s) (sy_replies s) k.
Proof.
  revert s tr n id k. induction es as [|e es IH] using rev_ind; intros s tr n id k Hr Hn.
  { injection Hr as <- <-. done. }
  apply s_run_snoc in Hr as (s1 & tr1 & o & H1 & H2 & ->). pose proof (s_step_case _ _ _ _ _ _ H2) as Hc.
  specialize (fun n id k => IH _ _ n id k H1). pose proof (minv_reach _ _ _ H1) as Hi.
  assert (forall m c, <[m := c]> (sy_clients s1) !! n = Some (GpWait id k) -> (forall id k, c <> GpWait id k) -> sy_clients s1 !! n = Some (GpWait id k)) as HA.
  { intros m c Hx Hne. destruct (decide (m = n)) as [->|Hmn]; [rewrite lookup_insert in Hx; injection Hx as ->; by destruct (Hne id k)|].
    by rewrite lookup_insert_ne in Hx. }
  assert (forall m, delete m (sy_clients s1) !! n = Some (GpWait id k) -> sy_clients s1 !! n = Some (GpWait id k)) as HB.
  { intros m [_ Hx]%lookup_delete_Some. done. }
  destruct Hc; cbn [with_client with_m with_c with_q with_job leave sy_clients sy_m sy_replies] in Hn |- *;
    try (by eapply IH; first [exact Hn|eapply HB; exact Hn|eapply HA; [exact Hn|done]]).
  - eapply IH. eapply HA; [exact Hn|]. by destruct c.
  - eapply pend_step; [done|done|]. by eapply IH.
  - eapply pend_step; [done|done|]. by eapply IH.
  - destruct (decide (n0 = n)) as [->|Hne].
    + rewrite lookup_insert in Hn. injection Hn as <- <-. by eapply pend_ask.
    + rewrite lookup_insert_ne in Hn by done. eapply pend_step; [done|done|]. by eapply IH.
Qed.
Lemma find_some {A} (f : A -> bool) k x : x ∈ k -> f x = true -> exists y, List.find f k = Some y /\ f y = true /\ y ∈ k.
Proof.
  induction 1 as [x k|x y k _ IH]; intros Hf; cbn [List.find].
  - rewrite Hf. exists x. split; [done|]. split; [done|]. by left.
  - destruct (f y) eqn:E; [exists y; split; [done|]; split; [done|by left]|]. destruct (IH Hf) as (z & ? & ? & ?). exists z. split_and!; try done. by right.
Qed.
Lemma visit_enabled m t0 k c : minv m -> my_alive m = true -> my_tasks m !! t0 = Some (TVisit (Some k) c) ->
  is_Some (m_step p m (MeTask t0)).
Proof.
  intros Hi Ha Ht. destruct (mv_task _ Hi _ _ Ht) as (_ & Hc & _). cbn in Hc. apply Forall_cons in Hc as [Hc _].
  apply lookup_lt_is_Some in Hc as [x Hx]. cbn [m_step]. rewrite Ha. unfold task_step. rewrite Ht. unfold send_counter. rewrite Hx.
  destruct (counter_handle _ _ _ _) as [x' r]. destruct r; by eexists.
Qed.
Lemma act_enabled s n c rnd x : qs_mgr (sy_q s) = MAlive -> sy_clients s !! n = Some c -> client_act p l s n c rnd = Some x ->
  is_Some (s_step p l s (SeAct n rnd)).
Proof.
  intros Hm Hn Hx. destruct x as [s' o]. exists (s', o). apply s_step_eq. split; [by rewrite Hm|]. cbn [s_step']. by rewrite Hn.
Qed.
Lemma own_turn n s rnd : turn_for n s (SeAct n rnd) = true.
Proof. cbn. apply Nat.eqb_refl. Qed.
Lemma held es s tr n w c j : reach es s tr -> manageable l wk tr -> sy_clients s !! n = Some (VpPoll w c j) ->
  no_verdict s j = true -> exists r, holds (sy_q s) r j = true.
Proof.
  intros Hr Hm Hcl Hnv. pose proof (run_sinv _ _ _ _ _ _ _ _ _ Hr) as Hi.
  pose proof (decent_calm _ _ _ _ _ _ _ _ _ Hr (proj1 Hm)) as Hn. pose proof (no_panics_of _ Hn) as Hnp.
  pose proof (si_q _ _ _ _ _ _ Hi) as Hq.
  destruct (c45_enough_runners _ _ _ _ _ _ Hnp Hq (few_ips _ _ _ _ _ _ _ _ _ Hr Hm)) as [Hw _].
  destruct (si_own _ _ _ _ _ _ Hi _ _ _ Hcl eq_refl) as (v & Hv & Hop & Hok). cbn [job_ok] in Hok.
  assert (vj_buf v = []) as Eb by (unfold no_verdict in Hnv; rewrite Hv in Hnv; by destruct (vj_buf v)).
  assert (decent l w) as Hdw.
  { pose proof (si_log _ _ _ _ _ _ Hi _ _ Hcl) as [[ip' Hl] _]. apply (proj1 Hm n w ip').
    assert (SoCall n (CVerifyPow w ip') ∈ of_client n tr) as [_ Hx]%elem_of_of_client; [|done]. rewrite Hl. by left. }
  destruct (script_decent l w (cc_difficulty_factor c) Hdw) as (bs & Hbs & Hne & _). rewrite Hok, Eb in Hbs. cbn in Hbs.
  destruct (si_poll _ _ _ _ _ _ Hi _ _ _ _ Hcl) as [ip' Ha].
  destruct (conservation _ _ _ _ _ _ Hnp Hq) as (_ & Hp & _).
  assert (j ∈ (accepted (qouts tr)).*2) as Hj.
  { apply elem_of_list_fmap. exists (ip', j). split; [done|]. apply elem_of_list_omap. by exists (QAnswer j ip' (Ok tt)). }
  rewrite Hp, Hw in Hj. cbn [app] in Hj. rewrite !elem_of_app in Hj. destruct Hj as [Hj|[Hj|Hj]].
  - apply concat_elem in Hj as (k & Hk & Hj). apply elem_of_list_fmap in Hk as (x & -> & Hx).
    apply elem_of_list_lookup in Hx as [r Hx]. exists r. unfold holds. rewrite Hx. apply bool_decide_eq_true, elem_of_app. by right.
  - apply concat_elem in Hj as (k & Hk & Hj). apply elem_of_list_fmap in Hk as (x & -> & Hx).
    apply elem_of_list_lookup in Hx as [r Hx]. exists r. unfold holds. rewrite Hx. apply bool_decide_eq_true, elem_of_app. by left.
  - destruct (si_fin _ _ _ _ _ _ Hi _ Hj) as (v' & Hv' & Ht & _). exfalso. apply Hne. congruence.
Qed.
Lemma next_ok rnd es s tr n cl : reach es s tr -> ~ check_panicked tr -> called tr n cl -> fit cl tr ->
  is_Some (sy_clients s !! n) ->
  turn_for n s (next_turn rnd n s) = true /\ is_Some (s_step p l s (next_turn rnd n s)).
Proof.
  intros Hr Hnp Hcl Hfit [c Hn]. pose proof (alive_here _ _ _ _ _ _ _ _ _ Hr Hnp) as Ha. pose proof (run_sinv _ _ _ _ _ _ _ _ _ Hr) as Hi.
  pose proof (client_kind _ _ _ _ _ _ Hr Hn Hcl) as Hk.
  assert (qs_mgr (sy_q s) <> MAborted) as Hna by (by rewrite Ha).
  assert (forall x, client_act p l s n c (rnd s) = Some x ->
    turn_for n s (SeAct n (rnd s)) = true /\ is_Some (s_step p l s (SeAct n (rnd s)))) as Hact.
  { intros x Hx. split; [apply own_turn|]. by eapply act_enabled. }
  unfold next_turn. rewrite Hn.
  destruct c as [id|id k|id v cfg|cfg|w ip|w ip c|w c j|w c j|w c j tok|w c j tok|m|bb]; cbn [client_act] in Hact.
  - cbn [m_step] in Hact. destruct (my_alive (sy_m s)).
    + destruct (m_handle _ _ _). by eapply Hact.
    + by eapply Hact.
  - destruct (sy_replies s !! k) as [x|] eqn:Ek.
    { unfold s_return in Hact. destruct x as [[[v|]|e]|r|a|d| |]; by eapply Hact. }
    destruct (pend_reach _ _ _ _ _ _ Hr Hn) as [Hx|(Hal & t0 & q & Ht)]; [rewrite Ek in Hx; by destruct Hx|].
    pose proof (minv_reach _ _ _ Hr) as Hmi. destruct (mv_task _ Hmi _ _ Ht) as [Hlt _].
    destruct (find_some (fun t1 => turn_for n s (SeMaster (MeTask t1))) (seq 0 (my_next (sy_m s))) t0) as (t1 & Hf & Ht1 & _).
    + apply elem_of_seq. lia.
    + cbn [turn_for]. rewrite Hn, Ht, Nat.eqb_refl. by apply bool_decide_eq_true.
    + rewrite Hf. split; [done|]. cbn [turn_for] in Ht1. rewrite Hn in Ht1.
      destruct (my_tasks (sy_m s) !! t1) as [[| |[k'|]| | | |]|] eqn:Et; try done.
      destruct (visit_enabled _ _ _ _ Hmi Hal Et) as [[m' os] Hs]. eexists. apply s_step_eq. split; [done|].
      cbn [s_step']. rewrite Hs. done.
  - unfold s_cache_msg in Hact. destruct (hc_handle _ _ _) as [h r] eqn:E.
    assert (r = HrUnit (Ok tt)) as -> by (cbn [hc_handle save_pow_config] in E; by injection E as _ <-). by eapply Hact.
  - by eapply Hact.
  - unfold s_cache_msg in Hact. destruct (hc_handle _ _ _) as [h r] eqn:E.
    assert (exists x, r = HrPoW (Ok x)) as [x ->] by (cbn in E; destruct (hc_difficulty_map _ !! _); injection E as _ <-; eauto).
    destruct x as [c|]; [destruct (decide (w_key w = cc_key c))|]; by eapply Hact.
  - rewrite Ha in Hact. destruct (validate _ _) as [sends returns]. unfold q_step in Hact. rewrite Ha, (si_drop _ _ _ _ _ _ Hi) in Hact. by eapply Hact.
  - destruct (sy_answers s !! j) as [x|] eqn:Ej.
    { destruct x; by eapply Hact. }
    assert (manageable l wk tr) as Hm by (by destruct cl).
    pose proof (unanswered _ _ _ _ _ _ _ Hr Hm Hn Ej) as Hin. destruct (queue_facts _ _ _ Hr Hm) as (Hqi & Hal & _).
    split; [cbn [turn_for]; rewrite Hn; by apply bool_decide_eq_true|].
    destruct (qs_inbox (sy_q s)) as [|m rest] eqn:Eb; [by apply elem_of_nil in Hin|].
    destruct (manager_progress p _ _ _ _ _ Hqi Hal Eb) as (q' & o' & Hq' & _ & _).
    eexists. apply s_step_eq. split; [done|]. cbn [s_step']. unfold s_queue. by rewrite Hq'.
  - assert (manageable l wk tr) as Hm by (by destruct cl).
    destruct (no_verdict s j) eqn:Env.
    + destruct (held _ _ _ _ _ _ _ Hr Hm Hn Env) as [r0 Hh0].
      destruct (find_some (fun r => holds (sy_q s) r j) (seq 0 (length (im_runners (qs_im (sy_q s))))) r0) as (r & Hf & Hh & _); [|done|].
      { apply elem_of_seq. unfold holds in Hh0. destruct (im_runners _ !! r0) eqn:E; [|done]. apply lookup_lt_Some in E. lia. }
      rewrite Hf. destruct (queue_facts _ _ _ Hr Hm) as (Hqi & Hal & _).
      assert (turn_for n s (SeRecv r) = true /\ turn_for n s (SeSend r) = true /\ turn_for n s (SeEnd r) = true) as (T1 & T2 & T3).
      { cbn [turn_for]. rewrite Hn, Env, Hh. done. }
      destruct (running_job (sy_q s) r) as [i|] eqn:Er.
      * destruct (known_job _ _ _ _ _ _ i Hi Hnp) as [v Hv]; [right; by eapply running_elem|]. rewrite Hv.
        destruct (vj_todo v) as [|b0 rest] eqn:Et.
        -- split; [done|]. pose proof (end_enabled p l s r i v Hna Er Hv Et) as Hx. destruct (s_step p l s (SeEnd r)); [by eexists|done].
        -- split; [done|]. destruct (send_goes _ _ _ _ _ _ _ _ _ _ _ _ _ _ Hr Hnp (proj1 Hm) Er Hv Et) as (v' & Hs & _). rewrite Hs. by eexists.
      * split; [done|]. unfold holds in Hh. destruct (im_runners _ !! r) as [[ch st]|] eqn:Ex; [|done].
        apply bool_decide_eq_true in Hh. pose proof (Forall_lookup_1 _ _ _ _ (qi_runners _ _ _ Hqi) Ex) as Hrx. rewrite Hal in Hrx.
        destruct Hrx as [Hopen Hns]. unfold running_job in Er. rewrite Ex in Er. destruct st as [|i| |]; try done.
        cbn [rn_state rn_chan running app] in Hh. destruct ch as [|[|i] ch]; [by apply elem_of_nil in Hh|by inversion Hns|].
        eexists. apply s_step_eq. split; [done|]. cbn [s_step']. unfold s_queue, q_step, runner_recv. by rewrite Hal, Ex.
    + destruct (si_own _ _ _ _ _ _ Hi _ _ _ Hn eq_refl) as (v & Hv & _). unfold no_verdict in Env. rewrite Hv in Env.
      destruct (vj_buf v) as [|b0 rest] eqn:Eb; [done|]. split; [apply own_turn|].
      destruct (poll_leaves p l s n w c j v b0 rest (rnd s) Hna Hn Hv Eb) as (s' & o & Hs & _). rewrite Hs. by eexists.
  - unfold s_cache_msg in Hact. destruct (hc_handle _ _ _) as [h r] eqn:E.
    assert (r = HrUnit (Ok tt)) as -> by (cbn in E; by injection E as _ <-). by eapply Hact.
  - by eapply Hact.
  - unfold s_cache_msg in Hact. destruct (hc_handle _ _ _) as [h r] eqn:E.
    assert (exists b', r = HrBool (Ok b')) as [b' ->].
    { cbn [hc_handle] in E. unfold verify_result in E. repeat case_match; simplify_eq; eauto. }
    by eapply Hact.
  - by eapply Hact.
Qed.

(** * Attended to, a call returns *)
Lemma next_kind rnd n s : (forall c, next_turn rnd n s <> SeCall c) /\ (forall m, next_turn rnd n s <> SeCancel m) /\
  (forall r, next_turn rnd n s = SeEnd r -> exists w c j, sy_clients s !! n = Some (VpPoll w c j)).
Proof.
  unfold next_turn. destruct (sy_clients s !! n) as [[id|id k|id v cfg|cfg|w ip|w ip c|w c j|w c j|w c j tok|w c j tok|m|bb]|];
    repeat case_match; split_and!; try done; eauto.
Qed.
Lemma quiet_step s e s' o : scase p l s e s' o -> (forall c, e <> SeCall c) -> (forall m, e <> SeCancel m) ->
  (forall n c, SoCall n c ∉ o) /\ (forall n, SoCancel n ∉ o) /\ ((forall r, e <> SeEnd r) -> forall r, QePanic r ∉ qtrace o).
Proof.
  intros Hc H1 H2. destruct Hc; try (by destruct (H1 c)); try (by destruct (H2 n)); split_and!;
    try (intros; rewrite ?elem_of_cons, ?elem_of_nil; by intuition discriminate);
    try (intros; cbn; rewrite ?elem_of_cons, ?elem_of_nil; by intuition discriminate).
  intros Hne. by destruct (Hne r).
Qed.
Lemma manageable_quiet tr o : (forall n c, SoCall n c ∉ o) -> manageable l wk tr -> manageable l wk (tr ++ o).
Proof.
  intros Ho [Hd Hle]. split.
  - intros n w ip Hc. unfold called in Hc. apply elem_of_app in Hc as [Hc|Hc]; [by apply (Hd n w ip)|by destruct (Ho _ _ Hc)].
  - unfold callers. rewrite omap_app. assert (omap (fun o => match o with SoCall _ (CVerifyPow _ ip) => Some ip | _ => None end) o = []) as ->; [|by rewrite app_nil_r].
    induction o as [|x o IH]; [done|]. cbn. destruct x; try (apply IH; intros m c Hx; apply (Ho m c); by right).
    destruct (Ho n c). by left.
Qed.
Lemma attended rnd b n cl k : forall es s tr, reach es s tr -> ~ check_panicked tr -> called tr n cl -> fit cl tr ->
  is_Some (sy_clients s !! n) -> need b s n <= k ->
  (forall w ip, sy_clients s !! n = Some (VpStart w ip) -> burden (sy_q s) <= b) ->
  (forall w ip c, sy_clients s !! n = Some (VpAdd w ip c) -> burden (sy_q s) <= b) ->
  exists r, SoRet n r ∈ take_turns p l rnd n k s.
Proof.
  induction k as [|k IH]; intros es s tr Hr Hnp Hcl Hfit Hs Hk Hb1 Hb2.
  { pose proof (need_pos b _ _ Hs). lia. }
  destruct (next_ok rnd _ _ _ _ _ Hr Hnp Hcl Hfit Hs) as [Ht [[s1 o] Hst]]. cbn [take_turns]. rewrite Hst.
  pose proof (s_step_case _ _ _ _ _ _ Hst) as Hc. destruct (next_kind rnd n s) as (K1 & K2 & K3).
  destruct (quiet_step _ _ _ _ Hc K1 K2) as (Q1 & Q2 & Q3). pose proof (reach_step _ _ _ _ _ _ Hr Hst) as Hr1.
  assert (called (tr ++ o) n cl) as Hcl1 by (unfold called in *; apply elem_of_app; by left).
  assert (fit cl (tr ++ o)) as Hfit1 by (destruct cl; try done; by apply manageable_quiet).
  destruct Hs as [c Hn]. pose proof (client_kind _ _ _ _ _ _ Hr Hn Hcl) as Hkd.
  assert (~ check_panicked (tr ++ o)) as Hnp1.
  { intros [r Hx]. rewrite qtrace_app, elem_of_app in Hx. destruct Hx as [Hx|Hx]; [apply Hnp; by exists r|].
    destruct cl as [id|w ip|m].
    - apply (Q3) in Hx; [done|]. intros r' E. destruct (K3 _ E) as (w & c' & j & Hp). rewrite Hn in Hp. injection Hp as ->. done.
    - apply (decent_calm _ _ _ _ _ _ _ _ _ Hr1 (proj1 Hfit1)). exists r. rewrite qtrace_app, elem_of_app. by right.
    - apply (Q3) in Hx; [done|]. intros r' E. destruct (K3 _ E) as (w & c' & j & Hp). rewrite Hn in Hp. injection Hp as ->. done. }
  pose proof (need_step b _ _ _ _ _ _ _ _ Hr Hst Hn) as Hstep. rewrite Ht in Hstep.
  assert (need b s1 n + 1 <= need b s n) as Hdec.
  { apply Hstep.
    - intros Hw. destruct c; try done; destruct cl; try done.
    - intros rnd' w ip cf _ ->. by eapply Hb2. }
  destruct (sy_clients s1 !! n) as [c1|] eqn:E1.
  - destruct (IH _ _ _ Hr1 Hnp1 Hcl1 Hfit1) as [r Hx]; [by rewrite E1|lia| | |exists r; apply elem_of_app; by right].
    + intros w ip Hx. exfalso. destruct (not_by_dec n (next_turn rnd n s)) as [Hnb|[E|[rnd' E]]]; [|by destruct (K2 n)|].
      * pose proof (client_same _ _ _ _ _ _ _ (run_sinv _ _ _ _ _ _ _ _ _ Hr) Hc Hnb Hn) as Hn1. rewrite Hn1 in Hx. injection Hx as ->.
        destruct (turn_env _ _ _ _ Hnb Hn Ht) as [(? & ? & ? & ? & _ & ? & _)|[(? & ? & ? & _ & ? & _)|(? & ? & ? & ? & _ & ? & _)]]; done.
      * rewrite E in Hc. inversion Hc; subst; cbn [with_client with_m with_c with_q with_job leave sy_clients] in Hx;
          rewrite ?lookup_insert, ?lookup_delete in Hx; done.
    + intros w ip cf Hx. destruct (not_by_dec n (next_turn rnd n s)) as [Hnb|[E|[rnd' E]]]; [|by destruct (K2 n)|].
      * pose proof (client_same _ _ _ _ _ _ _ (run_sinv _ _ _ _ _ _ _ _ _ Hr) Hc Hnb Hn) as Hn1. rewrite Hn1 in Hx. injection Hx as ->.
        destruct (turn_env _ _ _ _ Hnb Hn Ht) as [(? & ? & ? & ? & _ & ? & _)|[(? & ? & ? & _ & ? & _)|(? & ? & ? & ? & _ & ? & _)]]; done.
      * rewrite E in Hc. inversion Hc; subst; cbn [with_client with_m with_c with_q with_job leave sy_clients sy_q] in Hx |- *;
          rewrite ?lookup_insert, ?lookup_delete in Hx; try done. by eapply Hb1.
  - destruct (gone_over _ _ _ _ _ Hr1 Hcl1 E1) as [Hx|[r Hx]]; apply elem_of_app in Hx as [Hx|Hx].
    + rewrite (over_gone _ _ _ _ Hr (or_introl Hx)) in Hn. done.
    + by destruct (Q2 _ Hx).
    + rewrite (over_gone _ _ _ _ Hr (or_intror (ex_intro _ r Hx))) in Hn. done.
    + exists r. apply elem_of_app. by left.
Qed.
End measured.
