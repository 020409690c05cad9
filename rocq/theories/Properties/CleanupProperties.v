(** C28 at any point of a pass, and C102: what asking for a cleanup does. *)
From Coq Require Import ZifyBool ZifyN ZifyNat Lia.
From Verif Require Import Model.Base Model.Defense Model.MCaptcha Model.Counter Model.Master
  Spec.MCaptchaSpec Spec.CounterSpec Spec.MasterSpec
  Proofs.MCaptchaProofs Proofs.CounterProofs Proofs.MasterProofs Proofs.MasterTasks Proofs.MasterLoops
  Properties.DefenseProperties Properties.MCaptchaProperties Properties.CounterProperties Properties.MasterProperties.
Import Master.
From Verif Require Export Proofs.CleanupTheorems.

(** ** C28: a site is removed while it is anywhere ahead of a cleanup pass *)
Theorem C28_ahead_refuted : forall p t gc es s tr w todo id x,
  m_run p (m_start t gc) es = Some (s, tr) -> my_alive s = true ->
  my_tasks s !! w = Some (TClean todo PCount) -> (id, x) ∈ todo -> bound (hist tr) id = Some (si_ctr x) ->
  alive_at s (si_ctr x) ->
  exists n s' tr', m_run p s (MeReq (RqRemove id) :: MeTask (my_next s) :: replicate n (MeTask w)) = Some (s', tr') /\
    (** the removal succeeds *)
    answers (my_reqs s) tr' = [MrUnit (Ok tt)] /\
    (** and the master is gone *)
    forall es2 s2 tr2 r, m_run p s' es2 = Some (s2, tr2) ->
      exists s3, m_step p s2 (MeReq r) = Some (s3, [MoReply (my_reqs s2) MrClosed]).
Proof. exact c28_ahead_refuted. Qed.
Print Assumptions C28_ahead_refuted.

(** Three sites, the pass has just begun, the last one is removed. *)
Example C28_ahead_witness : forall p, exists s tr todo,
  m_run p (m_start 0 60) [MeReq (RqAddSite "a" ex_m3); MeReq (RqAddSite "b" ex_m3); MeReq (RqAddSite "c" ex_m3);
    MeTask 0] = Some (s, tr) /\ my_alive s = true /\ my_tasks s !! 1%nat = Some (TClean todo PCount) /\
  ("c", Site false 2) ∈ todo /\ bound (hist tr) "c" = Some 2%nat /\ alive_at s 2.
Proof.
  intros p. eexists _, _, _. split; [by destruct p; vm_compute|]. split; [done|]. split; [done|].
  split; [right; right; left|]. split; [done|]. by eexists.
Qed.

(** ** C102 *)
(** Every CleanUp a client asks for stays: whenever no pass is under way, one
    more period is enough for one pass for the master itself and one for each
    CleanUp any client ever asked for. *)
Theorem C102_stays_refuted : forall p t gc es s tr,
  m_run p (m_start t gc) es = Some (s, tr) -> my_alive s = true ->
  (forall w todo ph, my_tasks s !! w <> Some (TClean todo ph)) ->
  exists ws s' tr', m_run p s (MeTick (gc * NS) :: (MeTask <$> ws)) = Some (s', tr') /\
    handled tr' = replicate (S (cleanups_asked es)) RqCleanUp.
Proof. exact c102_stays_refuted. Qed.
Print Assumptions C102_stays_refuted.

(** There are never fewer, nor more: as long as the master lives, exactly that
    many cleanups sleep or are under way. *)
Theorem C102_how_many : forall p t gc es s tr,
  m_run p (m_start t gc) es = Some (s, tr) -> my_alive s = true ->
  exists ts, NoDup ts /\ length ts = S (cleanups_asked es) /\
    forall w, w ∈ ts <-> exists x, my_tasks s !! w = Some x /\
      ((exists due, x = TWake due) \/ exists todo ph, x = TClean todo ph).
Proof. exact c102_how_many. Qed.
Print Assumptions C102_how_many.

(** And a CleanUp asked for while a pass begins kills the master if a used site
    is idle: one pass stops its counter, the other meets it. *)
Theorem C102_overlap_refuted : forall p t gc es s tr w due id c,
  m_run p (m_start t gc) es = Some (s, tr) -> my_alive s = true ->
  my_tasks s !! w = Some (TWake due) -> due <= my_now s ->
  (forall id c, bound (hist tr) id = Some c -> alive_at s c) ->
  bound (hist tr) id = Some c -> used (hist tr) id = true -> count_at s c 0 ->
  exists n n' s' tr',
    m_run p s (MeTask w :: MeReq RqCleanUp :: replicate n (MeTask (my_next s)) ++ replicate n' (MeTask (S (my_next s)))) =
      Some (s', tr') /\
    answers (my_reqs s) tr' = [MrUnit (Ok tt)] /\
    forall es2 s2 tr2 r, m_run p s' es2 = Some (s2, tr2) ->
      exists s3, m_step p s2 (MeReq r) = Some (s3, [MoReply (my_reqs s2) MrClosed]).
Proof. exact c102_overlap_refuted. Qed.
Print Assumptions C102_overlap_refuted.

(** Two CleanUps are asked for, all passes end; a period later there are three. *)
Definition ex_cleanups : list mevent :=
  [MeReq RqCleanUp; MeReq RqCleanUp; MeTask 0; MeTask 1; MeTask 2; MeTask 3].

Example C102_witness : forall p, exists s tr,
  m_run p (m_start 0 60) ex_cleanups = Some (s, tr) /\ my_alive s = true /\ cleanups_asked ex_cleanups = 2%nat /\
  (forall w todo ph, my_tasks s !! w <> Some (TClean todo ph)) /\
  (exists s' tr', m_run p s [MeTick (60 * NS); MeTask 1; MeTask 2; MeTask 3] = Some (s', tr') /\
     handled tr' = [RqCleanUp; RqCleanUp; RqCleanUp]).
Proof.
  intros p. destruct (m_run p (m_start 0 60) ex_cleanups) as [[s tr]|] eqn:E; [|by destruct p; vm_compute in E].
  exists s, tr. split; [done|].
  assert (map_Forall (fun _ x => match x with TClean _ _ => False | _ => True end) (my_tasks s)) as Hf.
  { apply map_Forall_to_list. destruct p; vm_compute in E; injection E as <- <-; vm_compute; repeat constructor. }
  split; [by destruct p; vm_compute in E; injection E as <- <-|]. split; [done|]. split.
  - intros w todo ph H. exact (Hf w _ H).
  - destruct p; vm_compute in E; injection E as <- <-; (eexists _, _; split; [by vm_compute|done]).
Qed.

(** The three sites of C24, the first used and idle: two passes at once. *)
Example C102_overlap_witness : forall p, exists s tr s' tr',
  m_run p (m_start 0 60) ex_three = Some (s, tr) /\ my_alive s = true /\
  my_tasks s !! 0%nat = Some (TWake 0) /\ 0 <= my_now s /\
  bound (hist tr) "a" = Some 0%nat /\ used (hist tr) "a" = true /\ count_at s 0 0 /\
  m_run p s (MeTask 0 :: MeReq RqCleanUp :: replicate 6 (MeTask (my_next s)) ++ replicate 1 (MeTask (S (my_next s)))) =
    Some (s', tr') /\ my_alive s' = false.
Proof.
  intros p. eexists _, _, _, _. split; [by destruct p; vm_compute|]. do 5 (split; [done|]).
  split; [by eexists|]. split; [by destruct p; vm_compute|]. done.
Qed.
