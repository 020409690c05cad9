(** Proofs of the theorems of Properties/ExecutorProperties.v. *)
From Coq Require Import ZifyBool ZifyN ZifyNat Lia.
From Verif Require Import Model.Base Model.Defense Model.MCaptcha Model.Counter Model.Master
  Model.HashCache Model.Queue Model.Pow Model.System
  Spec.CacheSpec Spec.QueueSpec Spec.MasterSpec Spec.SystemSpec Spec.ExecutorSpec
  Proofs.CacheProofs Proofs.QueueProofs Proofs.MasterProofs Proofs.MasterTasks Proofs.SystemProofs
  Proofs.SystemHistory Proofs.SystemLiveness Proofs.SystemProgress Proofs.ExecutorProofs
  Proofs.QueueTheorems Proofs.SystemTheorems Proofs.SystemLiveTheorems.

(** Site "site" is registered; client [n] gets challenge [x] (master task [k]);
    client [n] submits good work for [x] from address [ip] and is answered. *)
Definition ex_register : list sevent := [SeMaster (MeReq (RqAddSite "site" ex_site))].

Definition ex_get (n k : nat) (x : string) : list sevent :=
  [SeCall (CGetPow "site"); SeAct n ""; SeMaster (MeTask k); SeAct n x; SeAct n ""; SeAct n ""].

Definition ex_submit (n : nat) (x ip : string) : list sevent :=
  [SeCall (CVerifyPow (ex_work x "site" 80) ip); SeAct n ""; SeAct n ""].

Definition ex_served (n : nat) (x ip : string) : list sevent :=
  ex_submit n x ip ++ [SeManager; SeRecv 0; SeAct n ""; SeSend 0; SeEnd 0; SeManager;
                       SeAct n ("t" ++ x)%string; SeAct n ""; SeAct n ""].

(** Three honest visitors, one after the other, from addresses A, B, A. *)
Definition ex_three : list sevent :=
  ex_register ++ ex_get 0 1 "x" ++ ex_served 1 "x" "A" ++ ex_get 2 2 "y" ++ ex_served 3 "y" "B" ++
  ex_get 4 3 "z" ++ ex_submit 5 "z" "A" ++ [SeManager; SeAct 5 ""].

Lemma c77_thread_lost_refuted th p l t gc wk ql es s tr n w c j :
  s_run p l (sys_start t gc wk ql) es = Some (s, tr) -> ~ check_panicked tr ->
  quiescent (sy_q s) -> sy_clients s !! n = Some (VpPoll w c j) -> j ∈ waiting_in_queues (sy_q s) ->
  (forall m, th_client th m = th_client th n) ->
  forall es2 s2 tr2, s_run p l s es2 = Some (s2, tr2) -> permitted_run th p l s es2 ->
    (forall m r, ~ returned tr2 m r) /\ (forall m x, ~ called tr2 m x) /\
    (forall m rnd, permitted th s2 (SeAct m rnd) -> s_step p l s2 (SeAct m rnd) = None) /\
    (forall x, ~ permitted th s2 (SeCall x)) /\ (forall m, ~ permitted th s2 (SeCancel m)).
Proof.
  intros Hr Hn Hq Hcl Hj Hth es2 s2 tr2 H2 Hp. pose proof (run_sinv _ _ _ _ _ _ _ _ _ Hr) as Hi.
  pose proof (mgr_alive _ _ _ _ _ (si_q _ _ _ _ _ _ Hi) Hn (si_drop _ _ _ _ _ _ Hi)) as Hm.
  destruct (si_own _ _ _ _ _ _ Hi _ _ _ Hcl eq_refl) as (v & Hv & _ & _).
  assert (vj_buf v = []) as Hb.
  { destruct (run_chan _ _ _ _ _ _ _ _ _ Hr _ _ Hv) as [_ Hst]. destruct (vj_buf v) as [|b bs]; [done|].
    destruct Hst as [r Hst]; [done|]. by destruct (waiting_unstarted _ _ _ _ _ _ (si_q _ _ _ _ _ _ Hi) Hn Hj r). }
  assert (stranded s n w c j) as Hsd by (split; eauto).
  destruct (lonely_run _ _ _ _ _ _ _ _ _ _ _ _ _ _ _ _ _ Hr Hsd Hth H2 Hp) as [Hsd2 Ho].
  assert (spinning s2 n) as Hsp by (exists w, c, j; apply Hsd2).
  split_and!.
  - intros m. by apply no_client_quiet.
  - intros m. by apply no_client_quiet.
  - intros m rnd He. destruct (lonely_event _ _ _ _ Hth Hsp He) as (_ & _ & N3). rewrite (N3 m rnd eq_refl).
    by eapply stranded_stuck.
  - intros x He. destruct (lonely_event _ _ _ _ Hth Hsp He) as (N & _ & _). by apply (N x).
  - intros m He. destruct (lonely_event _ _ _ _ Hth Hsp He) as (_ & N & _). by apply (N m).
Qed.

Lemma c77_three_visits_refuted p :
  exists s tr,
    s_run p ex_lib (sys_start 0 60 1 10) ex_three = Some (s, tr) /\
    permitted_run one_thread p ex_lib (sys_start 0 60 1 10) ex_three /\
    returned tr 1 (RVerifyPow (Ok ("tx"%string, 50))) /\ returned tr 3 (RVerifyPow (Ok ("ty"%string, 50))) /\
    returned tr 4 (RGetPow (Ok (Some (PoWConfig "z" 70 "salt")))) /\
    called tr 5 (CVerifyPow (ex_work "z" "site" 80) "A") /\
    sufficient ex_lib (ex_work "z" "site" 80) 70 true /\ valid ex_lib (ex_work "z" "site" 80) true /\
    forall es2 s2 tr2, s_run p ex_lib s es2 = Some (s2, tr2) -> permitted_run one_thread p ex_lib s es2 ->
      (forall m r, ~ returned tr2 m r) /\ (forall m x, ~ called tr2 m x) /\
      (forall m rnd, permitted one_thread s2 (SeAct m rnd) -> s_step p ex_lib s2 (SeAct m rnd) = None) /\
      (forall x, ~ permitted one_thread s2 (SeCall x)) /\ (forall m, ~ permitted one_thread s2 (SeCancel m)).
Proof.
  assert (exists s tr, s_run p ex_lib (sys_start 0 60 1 10) ex_three = Some (s, tr) /\
    sy_clients s !! 5%nat = Some (VpPoll (ex_work "z" "site" 80) (CachedPoWConfig "site" 70 30) 2) /\
    waiting_in_queues (sy_q s) = [2%nat] /\ quiescent (sy_q s) /\
    (~ check_panicked tr) /\ returned tr 1 (RVerifyPow (Ok ("tx"%string, 50))) /\
    returned tr 3 (RVerifyPow (Ok ("ty"%string, 50))) /\
    returned tr 4 (RGetPow (Ok (Some (PoWConfig "z" 70 "salt")))) /\
    called tr 5 (CVerifyPow (ex_work "z" "site" 80) "A")) as (s & tr & Hr & Hcl & Hw & Hq & Hn & R1 & R2 & R3 & R4).
  { eexists _, _. split; [by destruct p; vm_compute|]. split; [by destruct p; vm_compute|].
    split; [by destruct p; vm_compute|]. split; [by destruct p; (split; [|repeat constructor])|].
    split; [intros [r Hr]; unfold qtrace in Hr; cbn in Hr; set_solver|]. unfold returned, called. split_and!; set_solver. }
  exists s, tr. split; [done|]. split; [apply permits_run_sound; by destruct p; vm_compute|].
  do 4 (split; [done|]). split; [done|]. split; [done|].
  intros es2 s2 tr2 H2 Hp.
  refine (c77_thread_lost_refuted one_thread p ex_lib 0 60 1 10 _ s tr 5 _ _ 2 Hr Hn Hq Hcl _ (fun _ => eq_refl) es2 s2 tr2 H2 Hp).
  rewrite Hw. by left.
Qed.

Lemma c78_garbage_stops_everything_refuted th p l t gc wk ql es s tr m w c j :
  s_run p l (sys_start t gc wk ql) es = Some (s, tr) -> ~ check_panicked tr ->
  sy_clients s !! m = Some (VpPoll w c j) -> (forall r, QStart r j ∉ qouts tr) ->
  (forall r, (r < length (im_runners (qs_im (sy_q s))))%nat ->
     exists n w' c' j', th_client th n = th_client th m /\ n <> m /\
       sy_clients s !! n = Some (VpAnswer w' c' j') /\ running_job (sy_q s) r = Some j' /\
       sufficient l w' (cc_difficulty_factor c') false /\ valid l w' false /\ s_step p l s (SeSend r) = None) ->
  forall es2 s2 tr2, s_run p l s es2 = Some (s2, tr2) -> permitted_run th p l s es2 ->
    (forall r j', QStart r j' ∉ qouts tr2) /\
    (forall n r, th_client th n = th_client th m -> ~ returned tr2 n r) /\
    (forall n x, th_client th n = th_client th m -> ~ called tr2 n x) /\
    (forall rnd, s_step p l s2 (SeAct m rnd) = None).
Proof.
  intros Hr Hn Hcl Hst Hrn es2 s2 tr2 H2 Hp. pose proof (run_sinv _ _ _ _ _ _ _ _ _ Hr) as Hi.
  pose proof (mgr_alive _ _ _ _ _ (si_q _ _ _ _ _ _ Hi) Hn (si_drop _ _ _ _ _ _ Hi)) as Hm.
  destruct (si_own _ _ _ _ _ _ Hi _ _ _ Hcl eq_refl) as (v & Hv & _ & _).
  assert (vj_buf v = []) as Hb.
  { destruct (run_chan _ _ _ _ _ _ _ _ _ Hr _ _ Hv) as [_ Hx]. destruct (vj_buf v) as [|b bs]; [done|].
    destruct Hx as [r Hx]; [done|]. by destruct (Hst r). }
  assert (seized th tr s (th_client th m) m w c j) as Hz.
  { split; try done; [by exists v|]. intros r Hlt.
    destruct (Hrn r Hlt) as (n & w' & c' & j' & Ht & Hne & Hc' & Hrun & Hs' & Hv' & Hb').
    destruct (blocked_waits _ _ _ _ _ _ _ _ _ _ _ _ _ _ Hr ltac:(by rewrite Hm) Hc' Hrun Hs' Hv' Hb') as [v' Hw].
    exists n, (VpAnswer w' c' j'), j', v'. done. }
  destruct (seized_run _ _ _ _ _ _ _ _ _ _ _ _ _ _ _ _ _ _ Hr Hz H2 Hp) as (Hz2 & Ho & Hq).
  split; [done|]. split_and!.
  - intros n r Ht Hret. assert (SoRet n r ∈ of_client n tr2) as Hin by (by apply elem_of_of_client).
    rewrite (Hq n Ht) in Hin. by apply elem_of_nil in Hin.
  - intros n x Ht Hx. assert (SoCall n x ∈ of_client n tr2) as Hin by (by apply elem_of_of_client).
    rewrite (Hq n Ht) in Hin. by apply elem_of_nil in Hin.
  - intros rnd. eapply seized_stuck; [|exact Hz2]. apply s_run_app. eauto 10.
Qed.

Lemma c79_thread_released th p l t gc wk ql es s tr n rnd :
  s_run p l (sys_start t gc wk ql) es = Some (s, tr) -> permitted_run th p l (sys_start t gc wk ql) es ->
  ~ check_panicked tr -> all_decent l tr -> (distinct_ips (qouts tr) <= wk)%nat ->
  spinning s n ->
  exists r es2 s2 tr2,
    s_run p l s (es2 ++ [SeAct n rnd]) = Some (s2, tr2) /\ permitted_run th p l s (es2 ++ [SeAct n rnd]) /\
    Forall (fun e => e = SeRecv r \/ e = SeSend r \/ e = SeEnd r) es2 /\
    ~ spinning s2 n.
Proof.
  intros Hr Hp Hn Hd Hle (w & c & j & Hc).
  destruct (spinner_released _ _ _ _ _ _ _ _ _ _ _ _ _ rnd Hr Hn Hd Hle Hc) as (r & es2 & s2 & tr2 & Hf & H2 & Hl).
  exists r, es2, s2, tr2. split; [done|]. split; [|split; [done|by intros (w' & c' & j' & H); eapply Hl]].
  by eapply runner_then_act.
Qed.
